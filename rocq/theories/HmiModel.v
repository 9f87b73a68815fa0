(** Model of src/onepower/hmi.py: background cosmology, growth, spherical
    collapse fits, halo-model ingredients and the redshift loop that produces
    one halo model per redshift.

    Simplifications.  astropy's cosmology object is the record [cosmo]: its dark
    energy equation of state, dark energy density scaling and density parameters
    are arbitrary fields.  scipy's [solve_ivp], the cubic [interp1d] over its
    output, [quad] and [root_scalar] are not modelled numerically: the growth function
    is an argument of the functions that use it, its integral is the exact one,
    and the theorems state what the exact solution of the coded equation does.  hmf's
    [DMHaloModel] is the record of the parameters onepower sets on it; the
    quantities it computes from them are arbitrary functions of that record. *)
From Coquelicot Require Import Coquelicot.
From Verif Require Import Base Quad.
Open Scope R_scope.

(** hmi.py:229-248  the astropy Flatw0waCDM object, as far as hmi.py reads it:
    w(z), de_density_scale(z), Om(z), Onu(z), Om0, Onu0, Ok0. *)
Record cosmo := {
  co_w : R -> R;
  co_de : R -> R;
  co_Om : R -> R;
  co_Onu : R -> R;
  co_Om0 : R;
  co_Onu0 : R;
  co_Ok0 : R }.

(** astropy's w0waCDM.w and de_density_scale (external, transcribed; used in the
    concrete cases and to show the assumptions on [co_w], [co_de] are met). *)
Definition cpl_w (w0 wa z : R) : R := w0 + wa * z / (1 + z).
Definition cpl_de (w0 wa z : R) : R :=
  fpow (1 + z) (3 * (1 + w0 + wa)) * exp (- 3 * wa * z / (1 + z)).

(** hmi.py:255-265  scale_factor, for one redshift. *)
Definition scale_factor (z : R) : R := 1 / (1 + z).

Section Background.
  Variable c : cosmo.

  (** hmi.py:290-313  _Hubble2. *)
  Definition Hubble2 (a Om Ode Ok : R) : R :=
    let z := -1 + 1 / a in
    Om * / a ^ 3 + Ode * co_de c z + Ok * / a ^ 2.

  (** hmi.py:267-288  _Omega_m. *)
  Definition Omega_m (a Om Ode Ok : R) : R := Om * / a ^ 3 / Hubble2 a Om Ode Ok.

  (** hmi.py:315-341  _AH. *)
  Definition AH (a Om Ode : R) : R :=
    let z := -1 + 1 / a in
    - (1/2) * (Om * / a ^ 3 + (1 + 3 * co_w c z) * Ode * co_de c z).

  (** hmi.py:355-358  the constants used by get_mead_growth_fnc. *)
  Definition g_a_init : R := / 10000.
  Definition g_Om : R := co_Om0 c + co_Onu0 c.
  Definition g_Ode : R := 1 - g_Om.
  Definition g_Ok : R := co_Ok0 c.

  (** hmi.py:362  early departure from matter domination. *)
  Definition g_f : R := 1 - Omega_m g_a_init g_Om g_Ode g_Ok.
  (** hmi.py:363-368  initial conditions. *)
  Definition d_init : R := fpow g_a_init (1 - 3 * g_f / 5).
  Definition v_init : R := (1 - 3 * g_f / 5) * fpow g_a_init (- 3 * g_f / 5).

  (** hmi.py:371-377  right-hand side of the growth equation. *)
  Definition growth_rhs (a d v : R) : R * R :=
    let fv := - (2 + AH a g_Om g_Ode / Hubble2 a g_Om g_Ode g_Ok) * v / a in
    let fd := 3 / 2 * Omega_m a g_Om g_Ode g_Ok * d / a ^ 2 in
    (v, fv + fd).
End Background.

(** hmi.py:395-415  get_mead_accumulated_growth at scale factor [a]: quad is the
    exact integral ([RInt]), [g] the growth function of get_mead_growth_fnc. *)
Definition accumulated_growth (g : R -> R) (a : R) : R :=
  RInt (fun t => g t / t) g_a_init a + g g_a_init.

(** hmi.py:417-436  f_Mead. *)
Definition f_Mead (x y p0 p1 p2 p3 : R) : R :=
  p0 + p1 * (1 - x) + p2 * (1 - x) ^ 2 + p3 * (1 - y).

(** hmi.py:451-452, 484-485  Om(z)+Onu(z) and the neutrino fraction. *)
Definition mead_Om (c : cosmo) (z : R) : R := co_Om c z + co_Onu c z.
Definition mead_fnu (c : cosmo) : R := co_Onu0 c / (co_Om0 c + co_Onu0 c).

(** hmi.py:467  EdS linear collapse threshold. *)
Definition dc_EdS : R := 3 / 20 * fpow (12 * PI) (2 / 3).

(** hmi.py:438-469  dc_Mead at redshift z; [g], [G] are the values of
    get_mead_growth and get_mead_accumulated_growth there. *)
Definition dc_Mead (c : cosmo) (g G z : R) : R :=
  let a := scale_factor z in
  let L := log10 (mead_Om c z) in
  (1 + f_Mead (g / a) (G / a) (-69/10000) (-208/10000) (312/10000) (21/10000) * L ^ 1
     + f_Mead (g / a) (G / a) (1/10000) (-647/10000) (-417/10000) (646/10000) * L ^ 0)
  * dc_EdS * (1 - 41/1000 * mead_fnu c).

(** hmi.py:471-501  Dv_Mead. *)
Definition Dv_Mead (c : cosmo) (g G z : R) : R :=
  let a := scale_factor z in
  let L := log10 (mead_Om c z) in
  (1 + f_Mead (g / a) (G / a) (-79/100) (-1017/100) (251/100) (651/100) * L ^ 1
     + f_Mead (g / a) (G / a) (-189/100) (38/100) (188/10) (-1587/100) * L ^ 2)
  * (18 * PI ^ 2) * (1 + 763/1000 * mead_fnu c).

(** ** Halo model ingredients *)

(** hmi.py:37, 626-637  valid values of hmcode_ingredients. *)
Inductive ingr := Mead2020Fb | Mead2020 | FitIngr | NoIngr.
Definition is_mead (i : ingr) : bool :=
  match i with Mead2020Fb | Mead2020 => true | _ => false end.

(** numpy broadcasting of [v * np.ones_like(z_vec)] for a 1-d [v] (np.atleast_1d)
    against a vector of length [nz]. *)
Definition broadcast (v : list R) (nz : nat) : res (list R) :=
  if Nat.eqb (List.length v) 1 then Ok (repeat (nth 0 v 0) nz)
  else if Nat.eqb (List.length v) nz then Ok v
  else if Nat.eqb nz 1 then Ok v
  else Err "ValueError".

(** The user-visible parameters of HaloModelIngredients that enter the halo
    models (hmi.py:565-625), and what the cosmology supplies. *)
Record hmi := {
  hi_ingr : ingr;
  hi_z : list R;
  hi_mdef : string;
  hi_hmf : string;
  hi_bias : string;
  hi_prof_dm : string;
  hi_prof_sat : string;
  hi_conc_dm : string;
  hi_conc_sat : string;
  hi_norm_cen : list R;
  hi_norm_sat : list R;
  hi_eta_cen : list R;
  hi_eta_sat : list R;
  hi_overdensity : R;
  hi_delta_c : R;
  hi_log10T : R;
  hi_cosmo : cosmo;
  hi_growth : R -> R;   (* get_mead_growth, as a function of redshift *)
  hi_Growth : R -> R    (* get_mead_accumulated_growth *) }.

(** A Python dict with string keys, insertion ordered. *)
Definition dict := list (string * R).
Fixpoint dget (d : dict) (k : string) : option R :=
  match d with
  | nil => None
  | (k', v) :: d' => if String.eqb k k' then Some v else dget d' k
  end.

(** The parameters onepower sets on a DMHaloModel.  Grid and transfer parameters (lnk_min, ..., growth_params) are passed
    through unchanged and left out. *)
Record hpar := {
  hp_z : R;
  hp_mdef : string;
  hp_mdef_par : dict;
  hp_delta_c : R;
  hp_hmf : string;
  hp_bias : string;
  hp_noconv : bool;
  hp_prof : string;
  hp_prof_par : dict;
  hp_conc : string;
  hp_conc_par : dict }.

Section Ingredients.
  Variable H : hmi.

  (** hmi.py:903-924  _delta_c_mod at one redshift. *)
  Definition delta_c_mod (z : R) : R :=
    if is_mead (hi_ingr H) then dc_Mead (hi_cosmo H) (hi_growth H z) (hi_Growth H z) z
    else if String.eqb (hi_mdef H) "SOVirial"
    then dc_EdS * (1 + 123/10000 * log10 (co_Om (hi_cosmo H) z))
    else hi_delta_c H * 1.

  (** hmi.py:926-939  _mdef_mod. *)
  Definition mdef_mod : string := if is_mead (hi_ingr H) then "SOVirial_Mead" else hi_mdef H.
  (** hmi.py:941-954  _hmf_mod. *)
  Definition hmf_mod : string := if is_mead (hi_ingr H) then "ST" else hi_hmf H.
  (** hmi.py:956-969  _bias_mod. *)
  Definition bias_mod : string := if is_mead (hi_ingr H) then "ST99" else hi_bias H.
  (** hmi.py:971-993  _halo_concentration_mod_dm (the lookup of the class, in
      halomod or colossus, is left to the name). *)
  Definition conc_mod_dm : string := if is_mead (hi_ingr H) then "Bullock01" else hi_conc_dm H.
  (** hmi.py:995-1016  _halo_concentration_mod_sat. *)
  Definition conc_mod_sat : string := if is_mead (hi_ingr H) then "Bullock01" else hi_conc_sat H.
  (** hmi.py:1018-1040  mdef_params at one redshift. *)
  Definition mdef_params (z : R) : dict :=
    if is_mead (hi_ingr H)
    then [("overdensity"%string, Dv_Mead (hi_cosmo H) (hi_growth H z) (hi_Growth H z) z)]
    else if String.eqb (hi_mdef H) "SOVirial" then []
    else [("overdensity"%string, hi_overdensity H)].
  (** hmi.py:1056-1064  disable_mass_conversion. *)
  Definition disable_mass_conversion : bool := is_mead (hi_ingr H).

  (** hmi.py:1066-1087  K at one redshift. *)
  Definition K (z : R) : R :=
    match hi_ingr H with
    | Mead2020 => 5196/1000 * 1
    | Mead2020Fb =>
        let theta := hi_log10T H - 78/10 in
        (5196/1000) / 4 * ((344/100 - 496/1000 * theta)
          * pow10 (z * (- (671/10000) - 371/10000 * theta)))
    | _ => 0
    end.

  (** hmi.py:855-901  _norm_c, _norm_s, _eta_c, _eta_s. *)
  Definition norm_c := broadcast (hi_norm_cen H) (List.length (hi_z H)).
  Definition norm_s := broadcast (hi_norm_sat H) (List.length (hi_z H)).
  Definition eta_c := broadcast (hi_eta_cen H) (List.length (hi_z H)).
  Definition eta_s := broadcast (hi_eta_sat H) (List.length (hi_z H)).

  (** hmf's behaviour when a parameter of a DMHaloModel is set (external).
      [dset old new] is the dictionary after assigning [new] to a dict-valued
      parameter holding [old]; [mset m m' d] is what assigning model [m'] over
      [m] does to the dictionary of that model's parameters. *)
  Variable dset : dict -> dict -> dict.
  Variable mset : string -> string -> dict -> dict.
  (** The value of sigma8_z[0] of a halo model. *)
  Variable sigma8 : hpar -> R.
  (** The dictionary halo_profile_params starts with (hmi.py:1043-1054). *)
  Variable prof_par0 : dict.

  (** hmi.py:1101-1125  the initial model. *)
  Definition x0 : res hpar :=
    match hi_z H with
    | nil => Err "IndexError"
    | z :: _ => Ok {| hp_z := 0; hp_mdef := mdef_mod; hp_mdef_par := mdef_params z;
                      hp_delta_c := delta_c_mod z; hp_hmf := hmf_mod; hp_bias := bias_mod;
                      hp_noconv := disable_mass_conversion;
                      hp_prof := hi_prof_dm H; hp_prof_par := prof_par0;
                      hp_conc := conc_mod_dm; hp_conc_par := [] |}
    end.

  (** x.update(z=, mdef_params=, delta_c=). *)
  Definition upd_z (z : R) (mp : dict) (dc : R) (x : hpar) : hpar :=
    {| hp_z := z; hp_mdef := hp_mdef x; hp_mdef_par := dset (hp_mdef_par x) mp;
       hp_delta_c := dc; hp_hmf := hp_hmf x; hp_bias := hp_bias x; hp_noconv := hp_noconv x;
       hp_prof := hp_prof x; hp_prof_par := hp_prof_par x;
       hp_conc := hp_conc x; hp_conc_par := hp_conc_par x |}.

  (** x.update(halo_profile_model=, halo_concentration_model=). *)
  Definition upd_models (pm cm : string) (x : hpar) : hpar :=
    {| hp_z := hp_z x; hp_mdef := hp_mdef x; hp_mdef_par := hp_mdef_par x;
       hp_delta_c := hp_delta_c x; hp_hmf := hp_hmf x; hp_bias := hp_bias x;
       hp_noconv := hp_noconv x;
       hp_prof := pm; hp_prof_par := mset (hp_prof x) pm (hp_prof_par x);
       hp_conc := cm; hp_conc_par := mset (hp_conc x) cm (hp_conc_par x) |}.

  (** x.update(halo_profile_params=, halo_concentration_params=). *)
  Definition upd_par (pp cp : dict) (x : hpar) : hpar :=
    {| hp_z := hp_z x; hp_mdef := hp_mdef x; hp_mdef_par := hp_mdef_par x;
       hp_delta_c := hp_delta_c x; hp_hmf := hp_hmf x; hp_bias := hp_bias x;
       hp_noconv := hp_noconv x;
       hp_prof := hp_prof x; hp_prof_par := dset (hp_prof_par x) pp;
       hp_conc := hp_conc x; hp_conc_par := dset (hp_conc_par x) cp |}.

  (** hmi.py:1144, 1171  eta of the HMCode branch. *)
  Definition mead_eta (s8 : R) : R := 1281/10000 * Rpower s8 (- 3644/10000).

  (** hmi.py:1131-1150  one turn of the central loop, HMCode branch. *)
  Definition cen_mead (x : hpar) (z nrm : R) : hpar :=
    let x1 := upd_z z (mdef_params z) (delta_c_mod z) x in
    let eta := mead_eta (sigma8 x1) in
    upd_par [("eta_bloat"%string, eta)] [("norm"%string, nrm); ("K"%string, K z)] x1.
  (** hmi.py:1153-1177  one turn of the satellite loop, HMCode branch. *)
  Definition sat_mead (y : hpar) (z nrm : R) : hpar :=
    let y1 := upd_models (hi_prof_sat H) conc_mod_sat
                (upd_z z (mdef_params z) (delta_c_mod z) y) in
    let eta := mead_eta (sigma8 y1) in
    upd_par [("eta_bloat"%string, eta)] [("norm"%string, nrm); ("K"%string, K z)] y1.
  (** hmi.py:1180-1196  one turn of the central loop, other ingredients. *)
  Definition cen_plain (x : hpar) (z eta nrm : R) : hpar :=
    upd_par [("eta_bloat"%string, eta)] [("norm"%string, nrm)]
      (upd_z z (mdef_params z) (delta_c_mod z) x).
  (** hmi.py:1199-1214  one turn of the satellite loop, other ingredients. *)
  Definition sat_plain (y : hpar) (z eta nrm : R) : hpar :=
    upd_par [("eta_bloat"%string, eta)] [("norm"%string, nrm)]
      (upd_models (hi_prof_sat H) conc_mod_sat
        (upd_z z (mdef_params z) (delta_c_mod z) y)).

  (** The loops: the object is updated in place and a clone appended
      (zip(..., strict=False) stops at the shortest list). *)
  Fixpoint loop2 (step : hpar -> R -> R -> hpar) (x : hpar) (zs ns : list R) : list hpar :=
    match zs, ns with
    | z :: zs', n :: ns' => let x' := step x z n in x' :: loop2 step x' zs' ns'
    | _, _ => nil
    end.
  Fixpoint loop3 (step : hpar -> R -> R -> R -> hpar) (x : hpar) (zs es ns : list R) : list hpar :=
    match zs, es, ns with
    | z :: zs', e :: es', n :: ns' => let x' := step x z e n in x' :: loop3 step x' zs' es' ns'
    | _, _, _ => nil
    end.

  (** hmi.py:1089-1215  _hmf_generator. *)
  Definition hmf_generator : res (list hpar * list hpar) :=
    bind x0 (fun x =>
    let y := x in
    if is_mead (hi_ingr H) then
      bind norm_c (fun nc => bind norm_s (fun ns =>
      Ok (loop2 cen_mead x (hi_z H) nc, loop2 sat_mead y (hi_z H) ns)))
    else
      bind eta_c (fun ec => bind norm_c (fun nc =>
      bind eta_s (fun es => bind norm_s (fun ns =>
      Ok (loop3 cen_plain x (hi_z H) ec nc, loop3 sat_plain y (hi_z H) es ns)))))).

  (** hmi.py:1217-1373, 1403-1537  the accessors: one row per model of the central
      (satellite) list; [q] is the quantity the accessor reads off the model. *)
  Definition acc_cen {A} (q : hpar -> A) : res (list A) :=
    bind hmf_generator (fun p => Ok (map q (fst p))).
  Definition acc_sat {A} (q : hpar -> A) : res (list A) :=
    bind hmf_generator (fun p => Ok (map q (snd p))).
  (** hmi.py:1231-1241, 1268-1278  mass and kh: read off the first central model. *)
  Definition acc_first {A} (q : hpar -> A) : res A :=
    bind hmf_generator (fun p => match fst p with nil => Err "IndexError" | x :: _ => Ok (q x) end).

  (** hmi.py:1389-1401  fnu. *)
  Definition fnu : list R := map (fun _ => co_Onu0 (hi_cosmo H) / co_Om0 (hi_cosmo H)) (hi_z H).
End Ingredients.

(** ** Functions kept for reference *)

(** hmi.py:1548-1599  Tk_cold_ratio. *)
Definition cold_pcb (f_nu : R) : R := (5 - sqrt (1 + 24 * (1 - f_nu))) / 4.
Definition cold_zeq (ommh2 T : R) : R := 25000 * ommh2 * / (T / (27/10)) ^ 4.
Definition cold_q (k ommh2 h T : R) : R := k * h * (T / (27/10)) ^ 2 / ommh2.
Definition cold_yfs (f_nu N_nu q : R) : R :=
  172/10 * f_nu * (1 + 488/1000 * Rpower f_nu (- 7 / 6)) * (N_nu * q / f_nu) ^ 2.
Definition Tk_cold_ratio (k g ommh2 h f_nu N_nu T : R) : R :=
  if Req_EM_T f_nu 0 then 1
  else
    let pcb := cold_pcb f_nu in
    let D := (1 + cold_zeq ommh2 T) * g in
    let yfs := cold_yfs f_nu N_nu (cold_q k ommh2 h T) in
    let Dcb := fpow (1 + fpow (D / (1 + yfs)) (7/10)) (pcb / (7/10)) in
    let Dcbnu := fpow (fpow (1 - f_nu) (7/10 / pcb) + fpow (D / (1 + yfs)) (7/10))
                      (pcb / (7/10)) in
    Dcb / Dcbnu.

(** hmi.py:1602-1628  sigmaR_cc for one scale r: simpson(integ, dx=dlnk). *)
Definition tophat (x : R) : R := 3 / x ^ 3 * (sin x - x * cos x).
Definition sigmaR_cc (n : nat) (power k : nat -> R) (r : R) : R :=
  let dlnk := ln (k 1%nat / k 0%nat) in
  let integ := fun i => power i * k i ^ 3 * tophat (r * k i) ^ 2 in
  sqrt (1 / 2 / PI ^ 2 * simpson n integ (fun i => INR i * dlnk)).

(** hmi.py:1632-1671  get_halo_collapse_redshifts for one mass: [sigma M] is the
    variance at the radius of mass [M], [root f] is root_scalar(f, bracket=(1e-3, 1.0)).root
    ([None] when the bracket shows no sign change: ValueError). *)
Definition collapse_redshift (g : R -> R) (sigma : R -> R) (root : (R -> R) -> option R)
    (dc z M : R) : res R :=
  let a := scale_factor z in
  let Mc := 1/100 * M in
  let fac := g a * dc / sigma Mc in
  if Rle_dec (g a) fac then Ok (-1 + 1 / a)
  else match root (fun af => g af - fac) with
       | Some af => Ok (-1 + 1 / af)
       | None => Err "ValueError"
       end.
