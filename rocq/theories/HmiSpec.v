(** Vocabulary of C72-C80: background expansion, growth, halo-model settings. *)
From Verif Require Import Base HmiModel.
Open Scope R_scope.

(** The dark energy density and the equation of state belong together:
    d ln rho_de / d ln (1+z) = 3 (1 + w). *)
Definition dark_energy_law (c : cosmo) : Prop :=
  forall z, -1 < z -> 0 < co_de c z /\
    derivable_pt_lim (co_de c) z (3 * (1 + co_w c z) / (1 + z) * co_de c z).

(** A flat universe with matter, some dark energy or none, and w <= 1. *)
Definition flat_universe (c : cosmo) : Prop :=
  co_Ok0 c = 0 /\ 0 < co_Om0 c + co_Onu0 c <= 1 /\ co_de c 0 = 1 /\
  forall z, 0 <= z -> co_w c z <= 1.

(** (d, v) solves, exactly, the initial value problem handed to solve_ivp. *)
Definition solves_growth (c : cosmo) (d v : R -> R) : Prop :=
  d g_a_init = d_init c /\ v g_a_init = v_init c /\
  forall a, g_a_init <= a <= 1 ->
    derivable_pt_lim d a (fst (growth_rhs c a (d a) (v a))) /\
    derivable_pt_lim v a (snd (growth_rhs c a (d a) (v a))).

(** Two dictionaries with the same keys, in the same order, none repeated. *)
Definition same_keys (d1 d2 : dict) : Prop := map fst d1 = map fst d2 /\ NoDup (map fst d1).

(** What is assumed of hmf's parameter setting: assigning a dictionary with the
    keys already there replaces it, assigning twice with the same keys keeps the
    second values only, and the assigned keys can be read back.  Both replacing
    and merging dictionaries satisfy this. *)
Definition setting_law (dset : dict -> dict -> dict) : Prop :=
  (forall o n, same_keys o n -> dset o n = n) /\
  (forall o n1 n2, same_keys n1 n2 -> dset (dset o n1) n2 = dset o n2) /\
  (forall o n k v, NoDup (map fst n) -> dget n k = Some v -> dget (dset o n) k = Some v).

(** Setting a model to its present value leaves that model's parameters alone;
    otherwise they may be kept or reset. *)
Definition model_law (mset : string -> string -> dict -> dict) : Prop :=
  forall m d, mset m m d = d.

(** sigma_8 of a halo model depends on the profile and concentration settings in no way. *)
Definition sigma8_law (sigma8 : hpar -> R) : Prop :=
  forall x x', hp_z x = hp_z x' -> hp_mdef x = hp_mdef x' -> hp_mdef_par x = hp_mdef_par x' ->
    hp_delta_c x = hp_delta_c x' -> hp_hmf x = hp_hmf x' -> hp_bias x = hp_bias x' ->
    hp_noconv x = hp_noconv x' -> sigma8 x = sigma8 x'.

(** Replacing and merging dictionaries. *)
Definition dset_replace (o n : dict) : dict := n.
Definition dset_merge (o n : dict) : dict :=
  map (fun kv => match dget n (fst kv) with Some v => (fst kv, v) | None => kv end) o
  ++ filter (fun kv => match dget o (fst kv) with Some _ => false | None => true end) n.

(** The parameter vectors have one value, or one per redshift. *)
Definition shape_ok (v : list R) (nz : nat) : Prop := List.length v = 1%nat \/ List.length v = nz.
Definition shapes_ok (H : hmi) : Prop :=
  let nz := List.length (hi_z H) in
  shape_ok (hi_norm_cen H) nz /\ shape_ok (hi_norm_sat H) nz /\
  (is_mead (hi_ingr H) = false -> shape_ok (hi_eta_cen H) nz /\ shape_ok (hi_eta_sat H) nz).

(** Entry i of a parameter vector of one of these shapes. *)
Definition entry (v : list R) (i : nat) : R :=
  if Nat.eqb (List.length v) 1 then nth 0 v 0 else nth i v 0.

(** The same ingredients at the single redshift number i. *)
Definition at_redshift (H : hmi) (i : nat) : hmi :=
  {| hi_ingr := hi_ingr H; hi_z := [nth i (hi_z H) 0]; hi_mdef := hi_mdef H; hi_hmf := hi_hmf H;
     hi_bias := hi_bias H; hi_prof_dm := hi_prof_dm H; hi_prof_sat := hi_prof_sat H;
     hi_conc_dm := hi_conc_dm H; hi_conc_sat := hi_conc_sat H;
     hi_norm_cen := [entry (hi_norm_cen H) i]; hi_norm_sat := [entry (hi_norm_sat H) i];
     hi_eta_cen := [entry (hi_eta_cen H) i]; hi_eta_sat := [entry (hi_eta_sat H) i];
     hi_overdensity := hi_overdensity H; hi_delta_c := hi_delta_c H; hi_log10T := hi_log10T H;
     hi_cosmo := hi_cosmo H; hi_growth := hi_growth H; hi_Growth := hi_Growth H |}.

(** Agreement of two ingredient settings on everything an HMCode choice leaves free. *)
Definition agree_mead (H1 H2 : hmi) : Prop :=
  hi_ingr H1 = hi_ingr H2 /\ hi_z H1 = hi_z H2 /\ hi_prof_dm H1 = hi_prof_dm H2 /\
  hi_prof_sat H1 = hi_prof_sat H2 /\ hi_norm_cen H1 = hi_norm_cen H2 /\
  hi_norm_sat H1 = hi_norm_sat H2 /\ hi_cosmo H1 = hi_cosmo H2 /\
  hi_growth H1 = hi_growth H2 /\ hi_Growth H1 = hi_Growth H2 /\
  (hi_ingr H1 = Mead2020Fb -> hi_log10T H1 = hi_log10T H2).

(** Agreement on everything that matters without HMCode ingredients. *)
Definition agree_plain (H1 H2 : hmi) : Prop :=
  is_mead (hi_ingr H1) = false /\ is_mead (hi_ingr H2) = false /\
  hi_z H1 = hi_z H2 /\ hi_mdef H1 = hi_mdef H2 /\ hi_hmf H1 = hi_hmf H2 /\
  hi_bias H1 = hi_bias H2 /\ hi_prof_dm H1 = hi_prof_dm H2 /\ hi_prof_sat H1 = hi_prof_sat H2 /\
  hi_conc_dm H1 = hi_conc_dm H2 /\ hi_conc_sat H1 = hi_conc_sat H2 /\
  hi_norm_cen H1 = hi_norm_cen H2 /\ hi_norm_sat H1 = hi_norm_sat H2 /\
  hi_eta_cen H1 = hi_eta_cen H2 /\ hi_eta_sat H1 = hi_eta_sat H2 /\
  (hi_mdef H1 = "SOVirial"%string -> hi_cosmo H1 = hi_cosmo H2) /\
  (hi_mdef H1 <> "SOVirial"%string ->
     hi_overdensity H1 = hi_overdensity H2 /\ hi_delta_c H1 = hi_delta_c H2).

(** What the halo model of redshift number i must be set to, for a population
    with profile [prof], concentration relation [conc], normalisation [nrm] and
    bloating [eta]. *)
Definition settings_of (H : hmi) (sigma8 : hpar -> R) (i : nat) (prof conc : string)
    (nrm eta : R) (x : hpar) : Prop :=
  let z := nth i (hi_z H) 0 in
  hp_z x = z /\ hp_prof x = prof /\ dget (hp_conc_par x) "norm" = Some nrm /\
  if is_mead (hi_ingr H)
  then hp_mdef x = "SOVirial_Mead"%string /\ hp_hmf x = "ST"%string /\ hp_bias x = "ST99"%string /\
       hp_conc x = "Bullock01"%string /\ hp_noconv x = true /\
       dget (hp_mdef_par x) "overdensity" = Some (Dv_Mead (hi_cosmo H) (hi_growth H z) (hi_Growth H z) z) /\
       hp_delta_c x = dc_Mead (hi_cosmo H) (hi_growth H z) (hi_Growth H z) z /\
       dget (hp_conc_par x) "K" = Some (K H z) /\
       dget (hp_prof_par x) "eta_bloat" = Some (1281/10000 * Rpower (sigma8 x) (- 3644/10000))
  else hp_mdef x = hi_mdef H /\ hp_hmf x = hi_hmf H /\ hp_bias x = hi_bias H /\
       hp_conc x = conc /\ hp_noconv x = false /\
       (hi_mdef H <> "SOVirial"%string ->
          dget (hp_mdef_par x) "overdensity" = Some (hi_overdensity H) /\ hp_delta_c x = hi_delta_c H) /\
       (hi_mdef H = "SOVirial"%string ->
          dget (hp_mdef_par x) "overdensity" = None /\
          hp_delta_c x = dc_EdS * (1 + 123/10000 * log10 (co_Om (hi_cosmo H) z))) /\
       dget (hp_prof_par x) "eta_bloat" = Some eta.

(** root_scalar on g - fac over the bracket (1e-3, 1): what it returns is a root in
    the bracket, and it returns one when g - fac changes sign across the bracket. *)
Definition root_law (root : (R -> R) -> option R) (g : R -> R) : Prop :=
  forall fac,
    (forall r, root (fun t => g t - fac) = Some r -> 1/1000 <= r <= 1 /\ g r = fac) /\
    (g (1/1000) <= fac <= g 1 -> root (fun t => g t - fac) <> None) /\
    (fac < g (1/1000) -> root (fun t => g t - fac) = None).

(** A growth function that increases with the scale factor. *)
Definition growing (g : R -> R) : Prop :=
  0 < g (1/1000) /\ forall a b, 1/1000 <= a -> a < b -> b <= 1 -> g a < g b.

(** A wavenumber grid equally spaced in ln k. *)
Definition ln_uniform (n : nat) (k : nat -> R) : Prop :=
  0 < k 0%nat /\ k 0%nat < k 1%nat /\
  forall i, (S i < n)%nat -> k (S i) = k i * (k 1%nat / k 0%nat).
