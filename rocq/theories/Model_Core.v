(** Dimensionless groups and conversions of core.py (Reynolds and Dean are in Model_Friction).
    Generated by tools/pytrans.py from /repo/fluids, function by function: floats are exact reals,
    a division, root, logarithm or power that Python refuses is an [Err]; float rounding and overflow
    are not represented.  Module constants are inlined with their exact rational value. *)
From Coq Require Import Reals String List Bool.
From Verif Require Import Base Model_Real.
From Verif Require Import Model_Friction.
Import ListNotations.
Open Scope R_scope.

(** fluids/core.py:274-274 [thermal_diffusivity]. *)
Definition thermal_diffusivity (k : R) (rho : R) (Cp : R) : result R :=
  pdiv k (rho * Cp).

(** fluids/core.py:320-321 [c_ideal_gas]. *)
Definition c_ideal_gas (T : R) (k : R) (MW : R) : result R :=
  Rspecific <- pdiv (8.31446261815324 * 1000) MW ;;
  psqrt ((k * Rspecific) * T).

(** fluids/core.py:438-442 [Peclet_heat]. *)
Definition Peclet_heat (V : R) (L : R) (rho : option R) (Cp : option R) (k : option R) (alpha : option R) : result R :=
  alpha <- (match rho with
    | Some rho => match Cp with
      | Some Cp => match k with
        | Some k => pdiv k (rho * Cp)
        | None => match alpha with
          | Some alpha => Ok alpha
          | None => Err ValueError
        end
      end
      | None => match alpha with
        | Some alpha => Ok alpha
        | None => Err ValueError
      end
    end
    | None => match alpha with
      | Some alpha => Ok alpha
      | None => Err ValueError
    end
  end) ;;
  pdiv (V * L) alpha.

(** fluids/core.py:481-481 [Peclet_mass]. *)
Definition Peclet_mass (V : R) (L : R) (D_ : R) : result R :=
  pdiv (V * L) D_.

(** fluids/core.py:539-543 [Fourier_heat]. *)
Definition Fourier_heat (t : R) (L : R) (rho : option R) (Cp : option R) (k : option R) (alpha : option R) : result R :=
  alpha <- (match rho with
    | Some rho => match Cp with
      | Some Cp => match k with
        | Some k => pdiv k (rho * Cp)
        | None => match alpha with
          | Some alpha => Ok alpha
          | None => Err ValueError
        end
      end
      | None => match alpha with
        | Some alpha => Ok alpha
        | None => Err ValueError
      end
    end
    | None => match alpha with
      | Some alpha => Ok alpha
      | None => Err ValueError
    end
  end) ;;
  pdiv (t * alpha) (L * L).

(** fluids/core.py:582-582 [Fourier_mass]. *)
Definition Fourier_mass (t : R) (L : R) (D_ : R) : result R :=
  pdiv (t * D_) (L * L).

(** fluids/core.py:644-648 [Graetz_heat]. *)
Definition Graetz_heat (V : R) (D_ : R) (x : R) (rho : option R) (Cp : option R) (k : option R) (alpha : option R) : result R :=
  alpha <- (match rho with
    | Some rho => match Cp with
      | Some Cp => match k with
        | Some k => pdiv k (rho * Cp)
        | None => match alpha with
          | Some alpha => Ok alpha
          | None => Err ValueError
        end
      end
      | None => match alpha with
        | Some alpha => Ok alpha
        | None => Err ValueError
      end
    end
    | None => match alpha with
      | Some alpha => Ok alpha
      | None => Err ValueError
    end
  end) ;;
  pdiv ((V * D_) * D_) (x * alpha).

(** fluids/core.py:701-706 [Schmidt]. *)
Definition Schmidt (D_ : R) (mu : option R) (nu : option R) (rho : option R) : result R :=
  match rho with
    | Some rho => match mu with
      | Some mu => pdiv mu (rho * D_)
      | None => match nu with
        | Some nu => pdiv nu D_
        | None => Err ValueError
      end
    end
    | None => match nu with
      | Some nu => pdiv nu D_
      | None => Err ValueError
    end
  end.

(** fluids/core.py:762-768 [Lewis]. *)
Definition Lewis (D_ : R) (alpha : option R) (Cp : option R) (k : option R) (rho : option R) : result R :=
  alpha <- (match k with
    | Some k => match Cp with
      | Some Cp => match rho with
        | Some rho => pdiv k (rho * Cp)
        | None => match alpha with
          | Some alpha => Ok alpha
          | None => Err ValueError
        end
      end
      | None => match alpha with
        | Some alpha => Ok alpha
        | None => Err ValueError
      end
    end
    | None => match alpha with
      | Some alpha => Ok alpha
      | None => Err ValueError
    end
  end) ;;
  pdiv alpha D_.

(** fluids/core.py:816-816 [Weber]. *)
Definition Weber (V : R) (L : R) (rho : R) (sigma : R) : result R :=
  pdiv (((V * V) * L) * rho) sigma.

(** fluids/core.py:857-857 [Mach]. *)
Definition Mach (V : R) (c : R) : result R :=
  pdiv V c.

(** fluids/core.py:914-914 [Confinement]. *)
Definition Confinement (D_ : R) (rhol : R) (rhog : R) (sigma : R) (g : R) : result R :=
  t1 <- pdiv sigma (g * (rhol - rhog)) ;;
  t2 <- psqrt t1 ;;
  pdiv t2 D_.

(** fluids/core.py:960-961 [Morton]. *)
Definition Morton (rhol : R) (rhog : R) (mul : R) (sigma : R) (g : R) : result R :=
  let mul2 := (mul * mul) in
  pdiv (((g * mul2) * mul2) * (rhol - rhog)) ((((rhol * rhol) * sigma) * sigma) * sigma).

(** fluids/core.py:1002-1002 [Knudsen]. *)
Definition Knudsen (path : R) (L : R) : result R :=
  pdiv path L.

(** fluids/core.py:1063-1070 [Prandtl]. *)
Definition Prandtl (Cp : option R) (k : option R) (mu : option R) (nu : option R) (rho : option R) (alpha : option R) : result R :=
  match k with
    | Some k => match Cp with
      | Some Cp => match mu with
        | Some mu => pdiv (Cp * mu) k
        | None => match nu with
          | Some nu => match rho with
            | Some rho => pdiv ((nu * rho) * Cp) k
            | None => match alpha with
              | Some alpha => pdiv nu alpha
              | None => Err ValueError
            end
          end
          | None => Err ValueError
        end
      end
      | None => match nu with
        | Some nu => match rho with
          | Some rho => match alpha with
            | Some alpha => pdiv nu alpha
            | None => Err ValueError
          end
          | None => match alpha with
            | Some alpha => pdiv nu alpha
            | None => Err ValueError
          end
        end
        | None => Err ValueError
      end
    end
    | None => match nu with
      | Some nu => match rho with
        | Some rho => match Cp with
          | Some Cp => match alpha with
            | Some alpha => pdiv nu alpha
            | None => Err ValueError
          end
          | None => match alpha with
            | Some alpha => pdiv nu alpha
            | None => Err ValueError
          end
        end
        | None => match alpha with
          | Some alpha => pdiv nu alpha
          | None => Err ValueError
        end
      end
      | None => Err ValueError
    end
  end.

(** fluids/core.py:1135-1139 [Grashof]. *)
Definition Grashof (L : R) (beta : R) (T1 : R) (T2 : R) (rho : option R) (mu : option R) (nu : option R) (g : R) : result R :=
  nu <- (match rho with
    | Some rho => match mu with
      | Some mu => pdiv mu rho
      | None => match nu with
        | Some nu => Ok nu
        | None => Err ValueError
      end
    end
    | None => match nu with
      | Some nu => Ok nu
      | None => Err ValueError
    end
  end) ;;
  pdiv (((((g * beta) * (Rabs (T2 - T1))) * L) * L) * L) (nu * nu).

(** fluids/core.py:1176-1176 [Bond]. *)
Definition Bond (rhol : R) (rhog : R) (sigma : R) (L : R) : result R :=
  pdiv (((9.80665 * (rhol - rhog)) * L) * L) sigma.

(** fluids/core.py:1218-1218 [Rayleigh]. *)
Definition Rayleigh (Pr : R) (Gr : R) : result R :=
  Ok (Pr * Gr).

(** fluids/core.py:1267-1270 [Froude]. *)
Definition Froude (V : R) (L : R) (g : R) (squared : bool) : result R :=
  t1 <- psqrt (L * g) ;;
  Fr <- pdiv V t1 ;;
  if squared then let Fr := (Fr * Fr) in
  Ok Fr
  else Ok Fr.

(** fluids/core.py:1336-1340 [Froude_densimetric]. *)
Definition Froude_densimetric (V : R) (L : R) (rho1 : R) (rho2 : R) (heavy : bool) (g : R) : result R :=
  rho3 <- (if heavy then let rho3 := rho1 in
  Ok rho3
  else let rho3 := rho2 in
  Ok rho3) ;;
  t1 <- psqrt (g * L) ;;
  t2 <- pdiv V t1 ;;
  t3 <- pdiv rho3 (rho1 - rho2) ;;
  t4 <- psqrt t3 ;;
  Ok (t2 * t4).

(** fluids/core.py:1384-1384 [Strouhal]. *)
Definition Strouhal (f : R) (L : R) (V : R) : result R :=
  pdiv (f * L) V.

(** fluids/core.py:1432-1432 [Nusselt]. *)
Definition Nusselt (h : R) (L : R) (k : R) : result R :=
  pdiv (h * L) k.

(** fluids/core.py:1472-1472 [Sherwood]. *)
Definition Sherwood (K : R) (L : R) (D_ : R) : result R :=
  pdiv (K * L) D_.

(** fluids/core.py:1519-1519 [Biot]. *)
Definition Biot (h : R) (L : R) (k : R) : result R :=
  pdiv (h * L) k.

(** fluids/core.py:1564-1564 [Stanton]. *)
Definition Stanton (h : R) (V : R) (rho : R) (Cp : R) : result R :=
  pdiv h ((V * rho) * Cp).

(** fluids/core.py:1609-1609 [Euler]. *)
Definition Euler (dP : R) (rho : R) (V : R) : result R :=
  pdiv dP ((rho * V) * V).

(** fluids/core.py:1656-1656 [Cavitation]. *)
Definition Cavitation (P_ : R) (Psat : R) (rho : R) (V : R) : result R :=
  pdiv (P_ - Psat) (((0.5 * rho) * V) * V).

(** fluids/core.py:1697-1697 [Eckert]. *)
Definition Eckert (V : R) (Cp : R) (dT : R) : result R :=
  pdiv (V * V) (Cp * dT).

(** fluids/core.py:1742-1742 [Jakob]. *)
Definition Jakob (Cp : R) (Hvap : R) (Te : R) : result R :=
  pdiv (Cp * Te) Hvap.

(** fluids/core.py:1788-1788 [Power_number]. *)
Definition Power_number (P_ : R) (L : R) (N_ : R) (rho : R) : result R :=
  pdiv P_ ((((rho * N_) * N_) * N_) * (L ^ 5)).

(** fluids/core.py:1834-1834 [Drag]. *)
Definition Drag (F : R) (A : R) (V : R) (rho : R) : result R :=
  pdiv F ((((0.5 * A) * rho) * V) * V).

(** fluids/core.py:1881-1881 [Stokes_number]. *)
Definition Stokes_number (V : R) (Dp : R) (D_ : R) (rhop : R) (mu : R) : result R :=
  pdiv ((rhop * V) * (Dp * Dp)) ((18 * mu) * D_).

(** fluids/core.py:1926-1926 [Capillary]. *)
Definition Capillary (V : R) (mu : R) (sigma : R) : result R :=
  pdiv (V * mu) sigma.

(** fluids/core.py:1974-1974 [Archimedes]. *)
Definition Archimedes (L : R) (rhof : R) (rhop : R) (mu : R) (g : R) : result R :=
  pdiv (((((L * L) * L) * rhof) * (rhop - rhof)) * g) (mu * mu).

(** fluids/core.py:2018-2018 [Ohnesorge]. *)
Definition Ohnesorge (L : R) (rho : R) (mu : R) (sigma : R) : result R :=
  t1 <- psqrt ((L * rho) * sigma) ;;
  pdiv mu t1.

(** fluids/core.py:2071-2071 [Suratman]. *)
Definition Suratman (L : R) (rho : R) (mu : R) (sigma : R) : result R :=
  pdiv ((rho * sigma) * L) (mu * mu).

(** fluids/core.py:2125-2125 [Hagen]. *)
Definition Hagen (Re : R) (fd : R) : result R :=
  Ok (((0.5 * fd) * Re) * Re).

(** fluids/core.py:2169-2169 [Bejan_L]. *)
Definition Bejan_L (dP : R) (L : R) (mu : R) (alpha : R) : result R :=
  pdiv ((dP * L) * L) (alpha * mu).

(** fluids/core.py:2213-2213 [Bejan_p]. *)
Definition Bejan_p (dP : R) (K : R) (mu : R) (alpha : R) : result R :=
  pdiv (dP * K) (alpha * mu).

(** fluids/core.py:2267-2267 [Boiling]. *)
Definition Boiling (G : R) (q : R) (Hvap : R) : result R :=
  pdiv q (G * Hvap).

(** fluids/core.py:2346-2346 [relative_roughness]. *)
Definition relative_roughness (D_ : R) (roughness : R) : result R :=
  pdiv roughness D_.

(** fluids/core.py:2387-2391 [nu_mu_converter]. *)
Definition nu_mu_converter (rho : R) (mu : option R) (nu : option R) : result R :=
  match mu with
    | Some mu => match nu with
      | Some nu => Err ValueError
      | None => pdiv mu rho
    end
    | None => match nu with
      | Some nu => Ok (nu * rho)
      | None => Err ValueError
    end
  end.

(** fluids/core.py:2427-2429 [gravity]. *)
Definition gravity (latitude : R) (H : R) : result R :=
  let lat := ((latitude * PI) / 180) in
  let g := ((9.780356 * ((1 + (0.0052885 * ((sin lat) ^ 2))) - (0.0000059 * ((sin (2 * lat)) ^ 2)))) - (0.000003086 * H)) in
  Ok g.

(** fluids/core.py:2464-2464 [K_from_f]. *)
Definition K_from_f (fd : R) (L : R) (D_ : R) : result R :=
  pdiv (fd * L) D_.

(** fluids/core.py:2497-2497 [f_from_K]. *)
Definition f_from_K (K : R) (L : R) (D_ : R) : result R :=
  pdiv (K * D_) L.

(** fluids/core.py:2528-2528 [K_from_L_equiv]. *)
Definition K_from_L_equiv (L_D : R) (fd : R) : result R :=
  Ok (fd * L_D).

(** fluids/core.py:2559-2559 [L_equiv_from_K]. *)
Definition L_equiv_from_K (K : R) (fd : R) : result R :=
  pdiv K fd.

(** fluids/core.py:2588-2588 [L_from_K]. *)
Definition L_from_K (K : R) (D_ : R) (fd : R) : result R :=
  pdiv (K * D_) fd.

(** fluids/core.py:2622-2622 [dP_from_K]. *)
Definition dP_from_K (K : R) (rho : R) (V : R) : result R :=
  Ok ((((K * 0.5) * rho) * V) * V).

(** fluids/core.py:2656-2656 [head_from_K]. *)
Definition head_from_K (K : R) (V : R) (g : R) : result R :=
  pdiv (((K * 0.5) * V) * V) g.

(** fluids/core.py:2690-2690 [head_from_P]. *)
Definition head_from_P (P_ : R) (rho : R) (g : R) : result R :=
  t1 <- pdiv P_ rho ;;
  pdiv t1 g.

(** fluids/core.py:2722-2722 [P_from_head]. *)
Definition P_from_head (head : R) (rho : R) (g : R) : result R :=
  Ok ((head * rho) * g).

(** fluids/core.py:2758-2758 [C2K]. *)
Definition C2K (C_ : R) : result R :=
  Ok (C_ + 273.15).

(** fluids/core.py:2784-2784 [K2C]. *)
Definition K2C (K : R) : result R :=
  Ok (K - 273.15).

(** fluids/core.py:2809-2809 [F2C]. *)
Definition F2C (F : R) : result R :=
  Ok ((F - 32) / 1.8).

(** fluids/core.py:2834-2834 [C2F]. *)
Definition C2F (C_ : R) : result R :=
  Ok ((1.8 * C_) + 32).

(** fluids/core.py:2861-2861 [F2K]. *)
Definition F2K (F : R) : result R :=
  Ok (((F - 32) / 1.8) + 273.15).

(** fluids/core.py:2888-2888 [K2F]. *)
Definition K2F (K : R) : result R :=
  Ok ((1.8 * (K - 273.15)) + 32).

(** fluids/core.py:2915-2915 [C2R]. *)
Definition C2R (C_ : R) : result R :=
  Ok (1.8 * (C_ + 273.15)).

(** fluids/core.py:2940-2940 [K2R]. *)
Definition K2R (K : R) : result R :=
  Ok (1.8 * K).

(** fluids/core.py:2967-2967 [F2R]. *)
Definition F2R (F : R) : result R :=
  Ok ((F - 32) + (1.8 * 273.15)).

(** fluids/core.py:2994-2994 [R2C]. *)
Definition R2C (Ra : R) : result R :=
  Ok ((Ra / 1.8) - 273.15).

(** fluids/core.py:3019-3019 [R2K]. *)
Definition R2K (Ra : R) : result R :=
  Ok (Ra / 1.8).

(** fluids/core.py:3046-3046 [R2F]. *)
Definition R2F (Ra : R) : result R :=
  Ok ((Ra - (1.8 * 273.15)) + 32).
