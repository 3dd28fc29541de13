#!/usr/bin/env python3
"""Regenerate the translated model files (see pytrans.py)."""
import os, sys, ast
sys.path.insert(0, '/verif/tools')
from pytrans import *
TH = '/verif/rocq/theories/'

def const_node(mod, name):
    src = open(REPO + mod).read()
    for n in ast.walk(ast.parse(src)):
        if isinstance(n, ast.Assign) and isinstance(n.targets[0], ast.Name) and n.targets[0].id == name:
            return src, n
    raise KeyError(name)
def olit(src, e):
    if isinstance(e, ast.Constant) and e.value is None: return 'None'
    return 'Some ' + rlit(src, e)
def rlit(src, e):
    return lit(ast.get_source_segment(src, e))

# ---------------------------------------------------------------- friction
F = 'friction.py'
def fmethods():
    src, n = const_node(F, 'fmethods')
    rows = []
    for k, v in zip(n.value.keys, n.value.values):
        rows.append('("%s"%%string, (%s))' % (k.value, ', '.join(olit(src, x) for x in v.elts)))
    return '''(** fluids/friction.py:%d-%d [fmethods]: name, (Re_min, Re_max, eD_min, eD_max). *)
Definition fmethods : list (string * (option R * option R * option R * option R)) :=
  [%s].''' % (n.lineno, n.end_lineno, ';\n   '.join(rows))
def strlist(mod, name):
    src, n = const_node(mod, name)
    return '''(** fluids/%s:%d-%d. *)
Definition %s : list string := [%s].''' % (mod, n.lineno, n.end_lineno, name, '; '.join('"%s"%%string' % e.value for e in n.value.elts))

COLEBROOK = '''(** fluids/friction.py:422-480 [Colebrook] for [tol] None or -1, with [W] the principal branch of the
    Lambert function ([scipy]'s or py_lambertw).  Not represented: tol = 0 (needs mpmath), other tolerances
    (a secant search from Clamond's value) and the float overflow of the power of ten, which makes the code
    fall back on that secant search. *)
Definition Colebrook (W : R -> R) (Re : R) (eD : R) (tol : option R) : result R :=
  let closed :=
    let eD_Re := eD * Re in
    p <- ppow 10 (0.10767739851405189 * eD_Re) ;;
    let sub := 0.15872763924382155 * p * Re * Re in
    r <- psqrt sub ;;
    let lambert_term := W (1.151292546497022950546806896454654633998870849609375 * r) in
    let den := 2.30258509299404590109361379290930926799774169921875 * eD_Re - 18.574 * lambert_term in
    pdiv 457.28006463294371997108100913465023040771484375 (den * den) in
  match tol with
  | Some t => if Reqb t (-1) then (if Rltb 10 Re then Clamond Re eD false else closed) else Err NotImplementedError
  | None => closed
  end.'''
PVK = '''(** fluids/friction.py:1925-1927 [Prandtl_von_Karman_Nikuradse], [W] as above. *)
Definition Prandtl_von_Karman_Nikuradse (W : R -> R) (Re : R) : result R :=
  let c1 := 1.151292546497022842008995727342182103801 in
  let c2 := 1.325474527619599502640416597148504422899 in
  pdiv c2 (W ((c1 * Re) / 2.51) ^ 2).'''
METHODS = '''(** fluids/friction.py:2082-2089, the four range tests of one entry. *)
Definition in_limits (Re eD : R) (lim : option R * option R * option R * option R) : bool :=
  let '(Re_min, Re_max, eD_min, eD_max) := lim in
  if (match Re_min with Some m => Rltb Re m | None => false end) then false
  else if (match Re_max with Some m => Rltb m Re | None => false end) then false
  else if (match eD_min with Some m => Rltb eD m | None => false end) then false
  else if (match eD_max with Some m => Rltb m eD | None => false end) then false
  else true.

(** fluids/friction.py:2077-2093 [friction_factor_methods]. *)
Definition friction_factor_methods (Re eD : R) (check_ranges : bool) : list string :=
  if check_ranges then
    if Rltb Re 2040 then ["laminar"%string]
    else map fst (filter (fun e => in_limits Re eD (snd e)) fmethods)
  else map fst fmethods ++ ["laminar"%string].'''
CURVED = '''(** fluids/friction.py:3273-3281 [friction_factor_curved_methods] (the roughness argument is unused there). *)
Definition friction_factor_curved_methods (Re Di Dc : R) (check_ranges : bool) : result (list string) :=
  Re_crit <- helical_Re_crit Di Dc "Schmidt"%string ;;
  let turbulent := negb (Rltb Re Re_crit) in
  if check_ranges then
    if turbulent then Ok curved_friction_turbulent_methods_list else Ok curved_friction_laminar_methods_list
  else Ok (curved_friction_turbulent_methods_list ++ curved_friction_laminar_methods_list).'''
def friction():
    names = 'friction_laminar Blasius Clamond'.split()
    n2 = 'Moody Alshul_1952 Wood_1966 Churchill_1973 Eck_1973 Jain_1976 Swamee_Jain_1976 Churchill_1977 Chen_1979 Round_1980 Shacham_1980 Barr_1981 Zigrang_Sylvester_1 Zigrang_Sylvester_2 Haaland Serghides_1 Serghides_2 Tsal_1989 Manadilli_1997 Romeo_2002 Sonnad_Goudar_2006 Rao_Kumar_2007 Buzzelli_2008 Avci_Karagoz_2009 Papaevangelo_2010 Brkic_2011_1 Brkic_2011_2 Fang_2011 von_Karman'.split()
    fn = Fn(); fn.coq = 'Colebrook'; fn.pre = ['W']; fn.params = [('Re','R',None),('eD','R',None),('tol','option R','None')]; fn.ret = 'R'
    REG['Colebrook'] = fn
    w = {'pre': [('W', 'R -> R')], 'const': {'LAMINAR_TRANSITION_PIPE': '2040'}}
    items = [(F, n) for n in names] + [COLEBROOK] + [(F, n) for n in n2] + [PVK, (F, 'ft_Crane'), fmethods(), METHODS,
        (F, 'friction_factor', w), ('core.py', 'Dean'), ('core.py', 'Reynolds')]
    items += [(F, 'helical_laminar_fd_' + n) for n in ('White', 'Mori_Nakayama', 'Schmidt')]
    items += [(F, 'helical_turbulent_fd_' + n) for n in ('Srinivasan', 'Mori_Nakayama', 'Czop', 'Guo')]
    items += [(F, 'helical_turbulent_fd_' + n, w) for n in ('Schmidt', 'Prasad', 'Ju', 'Mandal_Nigam')]
    items += [(F, 'helical_transition_Re_' + n) for n in ('Seth_Stahel', 'Ito', 'Kubair_Kuloor', 'Kutateladze_Borishanskii', 'Schmidt', 'Srinivasan')]
    items += [(F, 'helical_Re_crit'), strlist(F, 'curved_friction_turbulent_methods_list'), strlist(F, 'curved_friction_laminar_methods_list'), CURVED,
              (F, 'friction_factor_curved', w), (F, 'transmission_factor'), (F, 'one_phase_dP', dict(w, types={'Method': 'option string'})),
              (F, 'one_phase_dP_acceleration'), (F, 'one_phase_dP_dz_acceleration'), (F, 'one_phase_dP_gravitational')]
    write(TH + 'Model_Friction.v', 'Pipe friction: correlations, dispatch, curved pipes, pressure drops.', items)

# ---------------------------------------------------------------- core
def fnames(mod, skip=()):
    src = open(REPO + mod).read()
    return [n.name for n in ast.parse(src).body if isinstance(n, ast.FunctionDef) and n.name not in skip]
def core():
    c = 'core.py'
    items = [(c, n) for n in fnames(c, ('Engauge_2d_parser', 'Dean', 'Reynolds'))]
    write(TH + 'Model_Core.v', 'Dimensionless groups and conversions of core.py (Reynolds and Dean are in Model_Friction).', items, '\nFrom Verif Require Import Model_Friction.')

# ---------------------------------------------------------------- compressible
def compressible():
    c = 'compressible.py'
    items = [(c, n) for n in 'isothermal_work_compression isentropic_work_compression isentropic_T_rise_compression isentropic_efficiency polytropic_exponent T_critical_flow P_critical_flow is_critical_flow stagnation_energy P_stagnation T_stagnation T_stagnation_ideal'.split()]
    items += [(c, n) for n in 'Panhandle_A Panhandle_B Weymouth'.split()]
    for n in 'Spitzglass_high Spitzglass_low Oliphant'.split():
        items += [(c, n, {'coq': n + '_explicit', 'stub': ['secant'], 'note': 'First pass: the branch solving for D, which is the only one to call [secant], is left out so that the residual below can be stated.'}),
                  (c, '_to_solve_' + n), (c, n, {'pre': [('secant', '(R -> result R) -> R -> result R')], 'solver': ['secant'], 'note': '[secant]: the root finder, a parameter.'})]
    items += [(c, n) for n in 'Fritzsche Muller IGT'.split()]
    write(TH + 'Model_Compressible.v', 'Gas compression and pipeline flow.', items)

# ---------------------------------------------------------------- control valves
def valve():
    c = 'control_valve.py'; f = 'fittings.py'
    items = [(f, n) for n in 'Cv_to_Kv Kv_to_Cv Kv_to_K K_to_Kv K_to_Cv Cv_to_K change_K_basis'.split()]
    items += [(c, n) for n in 'cavitation_index FF_critical_pressure_ratio_l control_valve_choke_P_l control_valve_choke_P_g is_choked_turbulent_l is_choked_turbulent_g Reynolds_valve loss_coefficient_piping Reynolds_factor'.split()]
    items += [(c, 'convert_flow_coefficient', {'types': {'flow_coefficient': 'R', 'old_scale': 'string', 'new_scale': 'string'}})]
    write(TH + 'Model_Valve.v', 'Control valve coefficients and flow coefficient conversions.', items)

# ---------------------------------------------------------------- fittings
FT = 'fittings.py'
def dict_items(mod, name):
    """rows name[key] = (numbers) of a module-level dictionary filled by assignments"""
    src = open(REPO + mod).read(); rows = []; lines = []
    for n in ast.parse(src).body:
        if isinstance(n, ast.Assign) and isinstance(n.targets[0], ast.Subscript) and n.targets[0].value.id == name:
            k = n.targets[0].slice
            key = k.value if isinstance(k, ast.Constant) else modconst(mod, k.id)[1].value
            rows.append('("%s"%%string, (%s)%%R)' % (key.replace('"', '""'), ', '.join(rlit(src, x) for x in n.value.elts)))
            lines.append(n.lineno)
    return rows, lines
def dict_def(mod, name, coq, ty):
    rows, lines = dict_items(mod, name)
    return """(** fluids/%s:%d-%d [%s]. *)
Definition %s : list (string * %s) :=
  [%s].""" % (mod, lines[0], lines[-1], name, coq, ty, ';\n   '.join(rows))
def names_def(mod, name):
    src, n = const_node(mod, name)
    vals = [e.value if isinstance(e, ast.Constant) else modconst(mod, e.id)[1].value for e in n.value.elts]
    return """(** fluids/%s:%d-%d. *)
Definition %s : list string := [%s].""" % (mod, n.lineno, n.end_lineno, name, ';\n  '.join('"%s"%%string' % v for v in vals))
TWOK = """(** Dictionary lookup by key. *)
Fixpoint assoc {B} (k : string) (l : list (string * B)) : option B :=
  match l with [] => None | (n, v) :: r => if String.eqb k n then Some v else assoc k r end.

(** fluids/fittings.py:3393-3408 [Hooper2K].  Outside numba the fallback on [Hooper_keys] always fails, and its
    bare except turns the NameError into ValueError. *)
Definition Hooper2K (Di Re : R) (name : option string) (K1 Kinfty : option R) : result R :=
  '(K1, Kinfty) <- match name with
     | Some n => match assoc n Hooper with Some ks => Ok ks | None => Err ValueError end
     | None => match K1, Kinfty with Some a, Some b => Ok (a, b) | _, _ => Err ValueError end
     end ;;
  t1 <- pdiv K1 Re ;;
  t2 <- pdiv 1 Di ;;
  Ok (t1 + Kinfty * (1 + t2)).

(** fluids/fittings.py:3259-3276 [Darby3K]. *)
Definition Darby3K (NPS Re : option R) (name : option string) (K1 Ki Kd Di : option R) : result R :=
  NPS <- match Di with
         | Some D => v <- interp (D * 1000) (map Q2R S40i) (map Q2R NPS40) None None true ;; Ok (Some v)
         | None => Ok NPS
         end ;;
  '(K1, Ki, Kd) <- match name with
     | Some n => match assoc n Darby with Some ks => Ok ks | None => Err ValueError end
     | None => match K1, Ki, Kd with Some a, Some b, Some c => Ok (a, b, c) | _, _, _ => Err ValueError end
     end ;;
  match NPS, Re with
  | Some NPS, Some Re =>
      t1 <- pdiv K1 Re ;;
      t2 <- ppow NPS (- 0.3) ;;
      Ok (t1 + Ki * (1 + Kd * t2))
  | _, _ => Err ValueError
  end."""
LINEAR = """(** A spline built by [tck_interp2d_linear] at module level and evaluated by [bisplev]. *)
Definition bisplev_linear (xs ys : list R) (zs : list (list R)) (x y : R) : result R :=
  '(tx, ty, c) <- tck_interp2d_linear xs ys zs ;;
  bisplev tx ty c 1 1 x y."""
UNIMPEDED = """(** fluids/fittings.py:1120-1148 [Miller_bend_unimpeded_correction]; [co i] is the value of the i-th curve. *)
Definition miller_Co (i : nat) (ratio : R) : result R :=
  lim <- idx (map Q2R bend_rounded_Miller_C_o_limits) i ;;
  if Rleb lim ratio then Ok 1
  else if Rleb ratio 0.01 then idx (map Q2R bend_rounded_Miller_C_o_limit_0_01) i
  else
    '(t, c) <- idx tck_bend_rounded_Miller_C_os i ;;
    py_splev ratio (map Q2R t) (map Q2R c) 3 0.
Fixpoint miller_Co_loop (n i : nat) (Kb_C_o ratio : R) : result R :=
  match n with
  | O => Err ValueError
  | S n =>
      lo <- idx (map Q2R bend_rounded_Miller_C_o_Kbs) i ;;
      hi <- idx (map Q2R bend_rounded_Miller_C_o_Kbs) (S i) ;;
      if (Rleb lo Kb_C_o && Rleb Kb_C_o hi)%bool then
        Co_low <- miller_Co i ratio ;;
        Co_high <- miller_Co (S i) ratio ;;
        t <- pdiv ((Kb_C_o - lo) * (Co_high - Co_low)) (hi - lo) ;;
        Ok (Co_low + t)
      else miller_Co_loop n (S i) Kb_C_o ratio
  end.
Definition Miller_bend_unimpeded_correction (Kb Di L_unimpeded : R) : result R :=
  let Kb_C_o := if Rltb Kb 0.1 then 0.1 else if Rltb 1 Kb then 1 else Kb in
  r <- pdiv L_unimpeded Di ;;
  let r := if Rltb 30 r then 30 else r in
  miller_Co_loop 5 0 Kb_C_o r."""
STAGED = """(** fluids/fittings.py:3018-3023 [diffuser_conical_staged]: the stage i of the loop; [DEs] and [ls] as lists. *)
Fixpoint staged_loop (DEs ls : list R) (n i : nat) (fd : option R) (method : string) (K : R) : result R :=
  match n with
  | O => Ok K
  | S n =>
      a <- idx DEs i ;; b <- idx DEs (S i) ;; l <- idx ls (S i) ;;
      k <- diffuser_conical a b (Some l) None fd None 0 method ;;
      staged_loop DEs ls n (S i) fd method (K + k)
  end.
Definition diffuser_conical_staged (Di1 Di2 : R) (DEs ls : list R) (fd : option R) (method : string) : result R :=
  d0 <- idx DEs 0 ;; l0 <- idx ls 0 ;;
  k0 <- diffuser_conical Di1 d0 (Some l0) None fd None 0 method ;;
  dn <- last_of DEs ;; ln_ <- last_of ls ;;
  k1 <- diffuser_conical dn Di2 (Some ln_) None fd None 0 method ;;
  staged_loop DEs ls (List.length DEs - 1) 0 fd method (0 + k0 + k1)."""
def miller_tables():
    out = []
    src, n = const_node(FT, 'tck_bend_rounded_Miller_C_os')
    names = [e.id for e in n.value.elts]
    for x in names: data_tck(FT, x)
    for x in ('bend_rounded_Miller_C_o_Kbs', 'bend_rounded_Miller_C_o_limits', 'bend_rounded_Miller_C_o_limit_0_01'): data_list(FT, x)
    for d in DATA:
        if d not in EMITTED: EMITTED.add(d); out.append(DATA[d])
    out.append('(** fluids/fittings.py:%d-%d *)\nDefinition tck_bend_rounded_Miller_C_os : list (list Q * list Q) := [%s].' % (n.lineno, n.end_lineno, '; '.join('(%s_t, %s_c)' % (x, x) for x in names)))
    return '\n\n'.join(out)
def fittings():
    import pytrans
    fr = 'friction.py'
    load_friction()
    valve_names = 'Cv_to_Kv Kv_to_Cv Kv_to_K K_to_Kv K_to_Cv Cv_to_K change_K_basis'.split()
    for n in valve_names: translate(FT, n)
    EMITTED.clear(); DATA.clear()
    items = [dict_def(FT, 'Hooper', 'Hooper', '(R * R)'), dict_def(FT, 'Darby', 'Darby', '(R * R * R)'), TWOK, LINEAR]
    lists = 'entrance_sharp_methods entrance_distance_methods entrance_angled_methods entrance_rounded_methods entrance_beveled_methods bend_rounded_methods bend_miter_methods contraction_sharp_methods contraction_round_methods contraction_conical_methods diffuser_sharp_methods diffuser_conical_methods CRANE_VALVES HOOPER_VALVES DARBY_VALVES'.split()
    items += [names_def(FT, n) for n in lists]
    W = {'pre': [('W', 'R -> R')]}
    done = set(valve_names) | {'Darby3K', 'Hooper2K', 'Miller_bend_unimpeded_correction', 'diffuser_conical_staged'}
    fn = Fn(); fn.coq = 'Miller_bend_unimpeded_correction'; fn.pre = []; fn.params = [('Kb','R',None),('Di','R',None),('L_unimpeded','R',None)]; fn.ret = 'R'
    REG['Miller_bend_unimpeded_correction'] = fn
    opts = {'entrance_sharp': {}, 'Miller_bend_roughness_correction': W, 'bend_rounded_Miller': W, 'bend_rounded_Ito': W, 'bend_miter_Miller': W,
            'bend_rounded': dict(W, types={'L_unimpeded': 'option R'}), 'bend_miter': W,
            'Crane_loss_coefficient': {'types': {'fitting': 'string', 'fd': 'option R'}}}
    for n in fnames(FT):
        if n in ('Miller_bend_unimpeded_correction',): items += [miller_tables(), UNIMPEDED]
        if n == 'diffuser_conical_staged': items.append(STAGED)
        if n == 'contraction_sharp': items.append((FT, 'contraction_conical_Crane')); done.add('contraction_conical_Crane')
        if n in done: continue
        items.append((FT, n, opts.get(n, {})))
    write(TH + 'Model_Fittings.v', 'Fittings: entrances, exits, bends, contractions, diffusers, 2K/3K methods, Crane valves and tees.', items, '\nFrom Coq Require Import QArith Qreals.\nFrom Verif Require Import Model_Numerics Model_Poly Model_Splines Data_Piping Model_Friction Model_Valve.')
GE = 'geometry.py'
HAND = os.path.join(os.path.dirname(os.path.abspath(__file__)), 'hand')
def hand(n): return open(os.path.join(HAND, n)).read()
def geometry():
    EMITTED.clear(); DATA.clear()
    names = 'SA_partial_sphere V_partial_sphere V_horiz_conical V_horiz_ellipsoidal V_horiz_guppy V_vertical_conical V_vertical_ellipsoidal V_vertical_spherical V_vertical_torispherical V_vertical_conical_concave V_vertical_ellipsoidal_concave V_vertical_spherical_concave SA_conical_head SA_guppy_head SA_torispheroidal'.split()
    items = [(GE, n) for n in names] + [hand('geometry.txt')]
    def reg(n, pre, params, ret='R'):
        fn = Fn(); fn.coq = n; fn.pre = pre; fn.params = params; fn.ret = ret; REG[n] = fn
    reg('SA_ellipsoidal_head', [], [('D', 'R', None), ('a', 'R', None)])
    reg('V_horiz_spherical', ['quad'], [('D', 'R', None), ('L', 'R', None), ('a', 'R', None), ('h', 'R', None), ('headonly', 'bool', 'false')])
    reg('V_horiz_torispherical', ['quad'], [('D', 'R', None), ('L', 'R', None), ('f', 'option R', None), ('k', 'option R', None), ('h', 'R', None), ('headonly', 'bool', 'false')])
    items += [(GE, n) for n in 'SA_partial_cylindrical_body A_partial_circle SA_partial_horiz_conical_head SA_partial_vertical_conical_head SA_partial_vertical_ellipsoidal_head SA_partial_vertical_spherical_head SA_partial_vertical_torispherical_head a_torispherical'.split()]
    items.append(hand('geometry2.txt'))
    items += [(GE, n) for n in 'pitch_angle_solver sphericity aspect_ratio circularity A_cylinder V_cylinder A_hollow_cylinder V_hollow_cylinder'.split()]
    write(TH + 'Model_Geometry.v', 'Tank, vessel and particle geometry.', items, '')

FM = 'flow_meter.py'
def strset(mod, name, coq=None):
    """a set of module-level string constants"""
    src, n = const_node(mod, name)
    v = n.value
    if isinstance(v, ast.Call): v = v.args[0]
    ids = [e.id for e in v.elts]
    vals = [const_node(mod, i)[1].value.value for i in ids]
    return '(** fluids/%s:%d-%d *)\nDefinition %s : list string := [%s].' % (mod, n.lineno, n.end_lineno, coq or name, '; '.join('"%s"%%string' % x for x in vals))
def flow_meter():
    EMITTED.clear(); DATA.clear()
    translate('core.py', 'Froude_densimetric')
    names = fnames(FM)
    skip = [n for n in names if n.startswith('err_dp') or n == 'differential_pressure_meter_solver']
    first = ['diameter_ratio_cone_meter', 'diameter_ratio_wedge_meter', 'differential_pressure_meter_beta', 'flow_meter_discharge']
    opts = {'differential_pressure_meter_beta': {'types': {'meter_type': 'string'}}, 'flow_meter_discharge': {'types': {'meter_type': 'string'}}}
    items = [(FM, n, opts.get(n, {})) for n in first + [n for n in names if n not in first and n not in skip and n != 'differential_pressure_meter_dP']]
    items = [strset(FM, 'beta_simple_meters')] + items + [hand('flow_meter.txt'), strset(FM, '_dP_orifice_set', 'dP_orifice_set'), (FM, 'differential_pressure_meter_dP')]
    write(TH + 'Model_FlowMeter.v', 'Differential pressure flow meters.', items, '\nFrom Coq Require Import QArith Qreals.\nFrom Verif Require Import Model_Numerics Model_Poly Model_Splines Model_Core.')

DR = 'drag.py'
def open_flow():
    EMITTED.clear(); DATA.clear()
    tabs = []
    for n in ('n_natural', 'n_excavated_dredged', 'n_lined_built', 'n_closed_conduit'):
        node = [s for s in ast.parse(open(REPO + 'open_flow.py').read()).body if isinstance(s, ast.Assign) and s.targets[0].id == n][0]
        d = ast.literal_eval(node.value)
        rows = ';\n   '.join('("%s", "%s", (%s))' % (a, b, ', '.join(repr(x) for x in t)) for a, r in d.items() for b, t in r.items())
        tabs.append('(** fluids/open_flow.py:%d-%d: (group, surface, (minimum, average, maximum)) *)\nDefinition %s : list (string * string * (Q * Q * Q)) :=\n  ([%s])%%Q%%string.\n' % (node.lineno, node.end_lineno, n, rows))
    tabs.append('(** fluids/open_flow.py:854 *)\nDefinition n_dicts := [n_natural; n_excavated_dredged; n_lined_built; n_closed_conduit].\n')
    write(TH + 'Model_OpenFlow.v', 'Weirs and open channels.', [('open_flow.py', n) for n in fnames('open_flow.py')] + tabs, '\nFrom Coq Require Import QArith Qreals.\nFrom Verif Require Import Model_Numerics.')

def drag():
    EMITTED.clear(); DATA.clear()
    translate('core.py', 'Reynolds')
    skip = ['drag_sphere_methods', '_v_terminal_err', 'v_terminal', 'time_v_terminal_Stokes', 'integrate_drag_sphere']
    items = [(DR, n) for n in fnames(DR, skip)]
    write(TH + 'Model_Drag.v', 'Drag on spheres.', items + [hand('drag.txt')], '\nFrom Verif Require Import Model_Friction.')

def packed_bed():
    EMITTED.clear(); DATA.clear()
    PB = 'packed_bed.py'
    items = [(PB, n) for n in fnames(PB, ['dP_packed_bed_methods'])] + [hand('packed_bed.txt')]
    write(TH + 'Model_PackedBed.v', 'Pressure drop and voidage of packed beds.', items)

def voidage():
    EMITTED.clear(); DATA.clear()
    V = 'two_phase_voidage.py'
    items = [('core.py', 'Froude')] + [(V, n) for n in fnames(V, ['liquid_gas_voidage_methods', 'gas_liquid_viscosity_methods'])] + [hand('voidage.txt')]
    write(TH + 'Model_Voidage.v', 'Void fraction and viscosity of gas-liquid mixtures.', items)

def two_phase():
    EMITTED.clear(); DATA.clear()
    load_friction()
    T = 'two_phase.py'
    for n in ('homogeneous', 'Lockhart_Martinelli_Xtt'): translate('two_phase_voidage.py', n)
    for n in ('Froude', 'Weber', 'Bond', 'Confinement', 'Suratman'): translate('core.py', n)
    w = {'pre': [('W', 'R -> R')]}
    now = ['_Beggs_Brill_holdup', 'Lombardi_Pedrocchi', 'friction_factor_Kim_Mudawar', 'Kim_Mudawar', 'Lockhart_Martinelli', 'two_phase_dP_acceleration', 'two_phase_dP_dz_acceleration', 'two_phase_dP_gravitational', 'two_phase_dP_dz_gravitational', 'Mandhane_Gregory_Aziz_regime']
    items = [(T, n) if n in now else (T, n, w) for n in fnames(T, ['two_phase_dP_methods'])] + [hand('two_phase.txt')]
    write(TH + 'Model_TwoPhase.v', 'Pressure drop and flow regimes of gas-liquid flow.', items, '\nFrom Coq Require Import QArith Qreals.\nFrom Verif Require Import Model_Friction Model_Voidage Model_Core Model_Splines.')

def equipment():
    EMITTED.clear(); DATA.clear()
    MX, FL, SP, SL, PT, JP = 'mixing.py', 'filters.py', 'separator.py', 'saltation.py', 'packed_tower.py', 'jet_pump.py'
    opts = {'size_tee': {'types': {'n': 'R'}}, 'Kp_helical_ribbon_Rieger': {'types': {'nb': 'R'}}}
    items = []
    for m, skip in ((FL, []), (SP, []), (MX, []), (SL, []), (PT, ['Stichlmair_wet', '_Stichlmair_flood_f_and_jac', 'Stichlmair_flood']), (JP, ['liquid_jet_pump_ancillary', 'liquid_jet_pump_pressure_ratio', 'liquid_jet_pump'])):
        items += [(m, n, opts.get(n, {})) for n in fnames(m, skip)]
    write(TH + 'Model_Equipment.v', 'Screens, separators, mixers, pneumatic conveying, packed towers, vacuum leakage.', items, '\nFrom Coq Require Import QArith Qreals.\nFrom Verif Require Import Model_Numerics Model_Poly Model_Splines.')

def small():
    EMITTED.clear(); DATA.clear()
    items = [('friction.py', n) for n in 'friction_plate_Martin_1999 friction_plate_Martin_VDI friction_plate_Muley_Manglik'.split()]
    items += [('pump.py', n) for n in 'Corripio_pump_efficiency Corripio_motor_efficiency specific_speed specific_diameter'.split()]
    items += [('pump.py', 'current_ideal', {'types': {'phase': 'R'}}), ('piping.py', 'erosional_velocity', {'types': {'rho': 'R', 'C': 'R'}}), hand('small.txt')]
    write(TH + 'Model_Small.v', 'Plate exchangers, pump estimates, erosional velocity, degree days, drilled cylinders.', items)

def load_friction():
    """register the signatures of Model_Friction without writing it"""
    for n in 'friction_laminar Blasius Clamond'.split(): translate(F, n)
    fn = Fn(); fn.coq = 'Colebrook'; fn.pre = ['W']; fn.params = [('Re','R',None),('eD','R',None),('tol','option R','None')]; fn.ret = 'R'
    REG['Colebrook'] = fn
    w = {'pre': [('W', 'R -> R')], 'const': {'LAMINAR_TRANSITION_PIPE': '2040'}}
    fn = Fn(); fn.coq = 'Prandtl_von_Karman_Nikuradse'; fn.pre = ['W']; fn.params = [('Re','R',None)]; fn.ret = 'R'
    REG['Prandtl_von_Karman_Nikuradse'] = fn
    for n in 'Moody Alshul_1952 Wood_1966 Churchill_1973 Eck_1973 Jain_1976 Swamee_Jain_1976 Churchill_1977 Chen_1979 Round_1980 Shacham_1980 Barr_1981 Zigrang_Sylvester_1 Zigrang_Sylvester_2 Haaland Serghides_1 Serghides_2 Tsal_1989 Manadilli_1997 Romeo_2002 Sonnad_Goudar_2006 Rao_Kumar_2007 Buzzelli_2008 Avci_Karagoz_2009 Papaevangelo_2010 Brkic_2011_1 Brkic_2011_2 Fang_2011 von_Karman ft_Crane'.split(): translate(F, n)
    translate(F, 'friction_factor', **w)
    for m, n in (('core.py', 'Dean'), ('core.py', 'Reynolds')): translate(m, n)
    for n in ('White', 'Mori_Nakayama', 'Schmidt'): translate(F, 'helical_laminar_fd_' + n)
    for n in ('Srinivasan', 'Mori_Nakayama', 'Czop', 'Guo'): translate(F, 'helical_turbulent_fd_' + n)
    for n in ('Schmidt', 'Prasad', 'Ju', 'Mandal_Nigam'): translate(F, 'helical_turbulent_fd_' + n, **w)
    for n in ('Seth_Stahel', 'Ito', 'Kubair_Kuloor', 'Kutateladze_Borishanskii', 'Schmidt', 'Srinivasan'): translate(F, 'helical_transition_Re_' + n)
    translate(F, 'helical_Re_crit'); translate(F, 'friction_factor_curved', **w)

if __name__ == '__main__':
    which = sys.argv[1:] or ['friction', 'core', 'compressible', 'valve', 'fittings', 'geometry', 'flow_meter', 'open_flow', 'drag', 'packed_bed', 'voidage', 'two_phase', 'equipment', 'small']
    for w in which: globals()[w]()
