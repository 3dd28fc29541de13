(** Vocabulary for the geometry theorems: volumes as integrals of cross sections.

    Lengths: [r] is the radius of the vessel, [y] a height above its lowest point, [x] a sideways offset
    from the vertical plane through the axis. *)
From Coq Require Import Reals Lra.
From Coquelicot Require Import Coquelicot.
Open Scope R_scope.

(** [V] is the volume below height [h] of a body whose horizontal section at height [y] has area [area y]. *)
Definition volume_below (area : R -> R) (h V : R) : Prop := is_RInt area 0 h V.

(** Half the width, at height [y], of a circle of radius [r] resting on height 0. *)
Definition half_chord (r y : R) : R := sqrt (y * (2 * r - y)).

(** A head on a horizontal vessel: [depth x y] says how far it sticks out over the point [(x, y)] of the end circle.
    [V] is its volume below height [h], as an iterated integral. *)
Definition section_area (depth : R -> R -> R) (r y S : R) : Prop :=
  is_RInt (fun x => depth x y) (- half_chord r y) (half_chord r y) S.
Definition head_volume (depth : R -> R -> R) (r h V : R) : Prop :=
  exists S, (forall y, 0 <= y <= h -> section_area depth r y (S y)) /\ volume_below S h V.

(** The four shapes, [a] being how far the head sticks out. *)
Definition cone_depth (r a x y : R) : R := a * (1 - sqrt (x * x + (r - y) * (r - y)) / r).
Definition ellipsoid_depth (r a x y : R) : R := a * sqrt (1 - (x * x + (r - y) * (r - y)) / (r * r)).
(** an oblique cone whose apex is level with the top of the vessel *)
Definition guppy_depth (r a x y : R) : R := a * (1 - (x * x + (2 * r - y) * (2 * r - y)) / (2 * r * (2 * r - y))).
(** a cap cut from a sphere of radius [rho] *)
Definition cap_depth (rho r x y : R) : R := sqrt (rho * rho - (x * x + (r - y) * (r - y))) - sqrt (rho * rho - r * r).

(** Squared radius, at height [y], of a head standing under a vertical vessel of radius [r], head height [a]. *)
Definition cone_r2 (r a y : R) : R := (r * y / a) * (r * y / a).
Definition ellipsoid_r2 (r a y : R) : R := r * r * (1 - (a - y) * (a - y) / (a * a)).
Definition cap_r2 (rho y : R) : R := y * (2 * rho - y).
(** Area of the vessel's section: the head below [a], the cylinder above. *)
Definition with_cylinder (r a : R) (head_r2 : R -> R) (y : R) : R := PI * (if Rlt_dec y a then head_r2 y else r * r).
(** The same for a head pushed inwards by [a]: what is left around it. *)
Definition around (r a : R) (head_r2 : R -> R) (y : R) : R := PI * (if Rlt_dec y a then r * r - head_r2 (a - y) else r * r).

(** A torispherical head under a vertical vessel of diameter [D]: dish radius [f * D], knuckle radius [k * D].
    [alpha] is the half opening angle of the dish; the knuckle starts at height [tori_a1], the head ends at [tori_a]. *)
Definition tori_alpha (f k : R) : R := asin ((1 / 2 - k) / (f - k)).
Definition tori_a1 (D f k : R) : R := f * D * (1 - cos (tori_alpha f k)).
Definition tori_a (D f k : R) : R := tori_a1 D f k + k * D * cos (tori_alpha f k).
Definition tori_r2 (D f k y : R) : R :=
  if Rlt_dec y (tori_a1 D f k) then cap_r2 (f * D) y
  else let rad := D * (1 / 2 - k) + sqrt (k * D * (k * D) - (tori_a D f k - y) * (tori_a D f k - y)) in rad * rad.

(** A height kept between the bottom and the top. *)
Definition clamp (lo hi h : R) : R := Rmax lo (Rmin hi h).
