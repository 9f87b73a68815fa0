(** Properties C131 and C132: the legacy beta_nl modules, their cache, and NonLinearBias. *)
From Coq Require Import ZArith Lia Lra.
From Verif Require Import Base BaseFacts FftModel BnlModel OptModel ChainModel MiniModel LhModel LiaSpec LkModel LkFacts7 LbModel LbSpec LbFacts LbFacts2 LbFacts3.
Open Scope R_scope.

(** ** C131 *)
(** Any chain of calls, whatever fails in it: what a call writes was computed from the block of the
    last counted call whose number is a multiple of the period. *)
Theorem C131_chain : forall fresh c l, bc_bnl c = true -> (0 < bc_update c)%Z ->
  forall i t, nth_error (snd (lb_chain fresh c lb_start l)) i = Some (Some t, Ok tt) ->
    let m := Z.of_nat (List.length (served fresh c lb_start (firstn i l))) in
    exists b, nth_error (served fresh c lb_start (firstn (S i) l)) (Z.to_nat (m - m mod bc_update c)) = Some b /\ computes fresh (bc_nk c) b t.
Proof. intros fresh c l O P i t H. exact (history fresh c O P l [] lb_start (keeps_start fresh c P) i t H). Qed.
Print Assumptions C131_chain.

(** When every block can be served, call number i has the table of call i - i mod update. *)
Theorem C131_schedule : forall fresh c (tab : Z -> nd_array) l, bc_bnl c = true -> (0 < bc_update c)%Z ->
  (forall i b e, nth_error l i = Some (b, e) -> e = None /\ computes fresh (bc_nk c) b (tab (Z.of_nat i))) ->
  forall i, (i < List.length l)%nat ->
  nth_error (snd (lb_chain fresh c lb_start l)) i = Some (Some (tab (Z.of_nat i - Z.of_nat i mod bc_update c)%Z), Ok tt).
Proof.
  intros fresh c tab l O P H i Hi. apply (schedule fresh c O P tab l 0 lb_start); [lia|reflexivity| |exact H|exact Hi].
  intro D. exfalso. apply D. apply Z.mod_0_l. lia.
Qed.
Print Assumptions C131_schedule.

(** For any period, no value comes from outside the blocks seen so far. *)
Theorem C131_origin : forall fresh c l, bc_bnl c = true ->
  forall i t, nth_error (snd (lb_chain fresh c lb_start l)) i = Some (Some t, Ok tt) ->
    exists b, In b (firstn (S i) (map fst l)) /\ computes fresh (bc_nk c) b t.
Proof. intros fresh c l O i t H. exact (written_from fresh c O [] l lb_start (start_empty fresh c []) i t H). Qed.
Print Assumptions C131_origin.

(** With a period of one every call is served from its own block. *)
Theorem C131_every : forall fresh c s b e s' t, bc_bnl c = true -> bc_update c = 1%Z ->
  lb_call fresh c s b e = (s', (Some t, Ok tt)) -> e = None /\ computes fresh (bc_nk c) b t.
Proof.
  intros fresh c s b e s' t O U. unfold lb_call. destruct (lb_wave (bc_nk c) b) as [kv|] eqn:W; [|discriminate].
  rewrite O, U, Z.mod_1_r. cbn [Z.eqb]. destruct (fresh kv b) as [t0|] eqn:F; [|discriminate].
  unfold nd_put. destruct e; [discriminate|]. intro H. injection H as _ <-. split; [reflexivity|]. exists kv. auto.
Qed.
Print Assumptions C131_every.

(** A call that cannot be served changes nothing: the next one tries again. *)
Theorem C131_failed : forall fresh c s b e,
  (exists x, lb_wave (bc_nk c) b = Err x) \/ bc_bnl c = true /\ (bc_update c = 0%Z \/
    (bs_calls s mod bc_update c = 0)%Z /\ exists kv x, lb_wave (bc_nk c) b = Ok kv /\ fresh kv b = Err x) ->
  exists x, lb_call fresh c s b e = (s, (e, Err x)).
Proof. exact call_failed. Qed.
Print Assumptions C131_failed.

(** A call whose entry is in the block already fails, but is counted and replaces what is kept. *)
Theorem C131_refused : forall fresh c s b e t, bc_bnl c = true -> bc_update c <> 0%Z -> (bs_calls s mod bc_update c = 0)%Z -> computes fresh (bc_nk c) b t ->
  lb_call fresh c s b (Some e) = ({| bs_calls := bs_calls s + 1; bs_table := Some t |}, (Some e, Err "BlockNameAlreadyExists"%string)).
Proof. exact call_refused. Qed.
Print Assumptions C131_refused.

(** Without bnl a single zero is written, from no emulator. *)
Theorem C131_off : forall fresh c s b kv, bc_bnl c = false -> lb_wave (bc_nk c) b = Ok kv ->
  lb_call fresh c s b None = (s, (Some (NdOne 0), Ok tt)).
Proof. exact call_off. Qed.
Print Assumptions C131_off.

(** The cosmology of the call and its wavenumbers do not matter between two computations. *)
Definition toy_block (k : R) : dblock := fun s n => if String.eqb s "matter_power_lin" then Some (BArr [k; k]) else Some (BDbl 1).
Definition toy_config (u : Z) : bconfig := {| bc_mass := [1]; bc_nk := 1; bc_bnl := true; bc_update := u |}.
Lemma toy_wave k : 0 < k -> lb_wave 1 (toy_block k) = Ok [k].
Proof.
  intro K. unfold lb_wave. change (array (toy_block k) "matter_power_lin" "k_h") with (Ok [k; k]). cbn [bind Z.ltb Z.compare].
  change (Z.to_nat 1) with 1%nat. unfold row, logspace, linspace. cbn [seq map last Nat.eqb]. now rewrite pow10_log10.
Qed.
Lemma toy_fresh k : 0 < k -> exists f g, computes (lb_fresh toy [1]) 1 (toy_block k) (NdFour 1 1 1 1 f) /\
  (forall x y, g x y (log10 (1 / 1000)) < 0) /\ (forall x y, 0 < g x y (log10 200)) /\ f 0%nat 0%nat 0%nat 0%nat = g (log10 1) (log10 1) (log10 k).
Proof.
  intro K. destruct (lb_fresh toy [1] [k] (toy_block k)) as [t|x] eqn:F.
  - destruct (fresh_entry toy [1] [k] _ t mean_fit_ls F) as (v & g & f & V & B & -> & En). exists f, g.
    split; [exists [k]; split; [now apply toy_wave|exact F]|].
    destruct (toy_interp v) as (g' & B' & N & P). rewrite B in B'. injection B' as <-. split; [exact N|]. split; [exact P|].
    apply (proj1 (En 0%nat 0%nat 0%nat ltac:(cbn; lia) ltac:(cbn; lia) ltac:(cbn; lia))).
  - exfalso. unfold lb_fresh in F. destruct (lb_vector (toy_block k)) as [v|] eqn:V; cbn [bind] in F; [|discriminate].
    pose proof (interpolation_class (em_phh toy v) (em_plin toy v) (em_quadratic toy) (em_fit toy) (em_Om toy v) mean_fit_ls) as I.
    destruct (toy_interp v) as (g & B & _). rewrite B in I. destruct (lb_interpolation _ _ _ _ _); cbn [bind agree] in *; [discriminate|exact I].
Qed.
Theorem C131_stale_refuted : exists E c b1 b2 f f2, bc_update c = 2%Z /\ bc_bnl c = true /\
  snd (lb_chain (lb_fresh E (bc_mass c)) c lb_start [(b1, None); (b2, None)]) = [(Some (NdFour 1 1 1 1 f), Ok tt); (Some (NdFour 1 1 1 1 f), Ok tt)] /\
  computes (lb_fresh E (bc_mass c)) (bc_nk c) b2 (NdFour 1 1 1 1 f2) /\ f 0%nat 0%nat 0%nat 0%nat < 0 < f2 0%nat 0%nat 0%nat 0%nat.
Proof.
  destruct (toy_fresh (1 / 1000)) as (f & g & C & N & _ & E1); [lra|]. destruct (toy_fresh 200) as (f2 & g2 & C2 & _ & P & E2); [lra|].
  exists toy, (toy_config 2), (toy_block (1 / 1000)), (toy_block 200), f, f2. split; [reflexivity|]. split; [reflexivity|].
  split; [|split; [exact C2|rewrite E1, E2; split; [apply N|apply P]]].
  change (bc_mass (toy_config 2)) with [1]. cbn [lb_chain]. rewrite (call_due _ (toy_config 2) eq_refl lb_start _ _ ltac:(cbn; lia) eq_refl C). cbn [fst snd].
  rewrite (call_kept _ (toy_config 2) eq_refl _ _ (NdFour 1 1 1 1 f) [200] ltac:(cbn; lia)); [reflexivity|discriminate|apply toy_wave; lra|reflexivity].
Qed.
Print Assumptions C131_stale_refuted.
Example C131_case : exists f, (forall x, snd (lb_chain (lb_fresh toy [1]) (toy_config 2) lb_start [(fun _ _ => None, None); (toy_block 200, None); (toy_block 1, Some x); (toy_block 1, None)]) =
  [(None, Err "BlockNameNotFound"%string); (Some (NdFour 1 1 1 1 f), Ok tt); (Some x, Err "BlockNameAlreadyExists"%string)] ++
   snd (lb_chain (lb_fresh toy [1]) (toy_config 2) {| bs_calls := 2; bs_table := Some (NdFour 1 1 1 1 f) |} [(toy_block 1, None)]))%list /\
  served (lb_fresh toy [1]) (toy_config 2) lb_start [(fun _ _ => None, None); (toy_block 200, None)] = [toy_block 200].
Proof.
  destruct (toy_fresh 200) as (f & g & C & _); [lra|]. exists f.
  assert (S0 : lb_call (lb_fresh toy [1]) (toy_config 2) lb_start (fun _ _ => None) None = (lb_start, (None, Err "BlockNameNotFound"%string))) by reflexivity.
  pose proof (call_due _ (toy_config 2) eq_refl lb_start _ _ ltac:(cbn; lia) eq_refl C) as S1. split.
  - intro x. assert (S2 : lb_call (lb_fresh toy [1]) (toy_config 2) {| bs_calls := 1; bs_table := Some (NdFour 1 1 1 1 f) |} (toy_block 1) (Some x) =
      ({| bs_calls := 2; bs_table := Some (NdFour 1 1 1 1 f) |}, (Some x, Err "BlockNameAlreadyExists"%string))).
    { unfold lb_call. cbn [bc_nk toy_config]. rewrite toy_wave by lra. reflexivity. }
    cbn [lb_chain]. rewrite S0. cbn [fst snd]. rewrite S1. cbn [fst snd app bs_calls lb_start]. change (0 + 1)%Z with 1%Z. rewrite S2. reflexivity.
  - cbn [served]. rewrite S0. cbn [fst]. rewrite Z.eqb_refl, S1. reflexivity.
Qed.

(** The deletion: only outside the test sampler and unless asked to keep; what is left is refused. *)
Theorem C131_delete : forall missing wrong o sampler d, lbd_setup missing wrong o (Ok sampler) = Ok d ->
  (d = true <-> sampler <> "test"%string /\ o "keep_bnl"%string <> Some (OBool true)) /\
  (d = false -> forall entry, lbd_execute d entry = entry) /\
  (d = true -> lbd_execute d None = None /\ forall t, lbd_execute d (Some t) = Some (NdOne 0) /\
    forall nz nm nk over dw nd c b, lb_handed nz nm nk (lbd_execute d (Some t)) = Some (nd_beta nd) -> kc_bnl c = true ->
      snd (lk_execute over dw nd c b) <> Ok tt) /\
  (forall entry, lbd_execute d (lbd_execute d entry) = lbd_execute d entry).
Proof.
  intros missing wrong o sampler d H. split; [|split; [|split]].
  - unfold lbd_setup in H. cbn [bind] in H. destruct (get_bool missing wrong o "keep_bnl" (Some false)) as [k|] eqn:K; cbn [bind] in H; [|discriminate].
    injection H as <-. unfold get_bool, absent in K. destruct (String.eqb_spec sampler "test") as [->|N]; cbn [negb andb].
    + split; [discriminate|]. now intros [? _].
    + destruct (o "keep_bnl"%string) as [[| |q| |]|]; try discriminate; injection K as <-.
      * destruct q; cbn [negb]; split; try discriminate.
        -- intros [_ Q]. now contradiction Q.
        -- intros _. split; [exact N|discriminate].
        -- reflexivity.
      * split; [intros _; split; [exact N|discriminate]|reflexivity].
  - intros -> [t|]; reflexivity.
  - intros ->. split; [reflexivity|]. intro t. split; [reflexivity|]. cbn [lbd_execute lb_handed].
    intros nz nm nk over dw nd c b B O Q. injection B as B. destruct (lk_execute over dw nd c b) as [b' r] eqn:E. cbn [snd] in Q. subst r.
    destruct (bnl_needs over dw nd c b b' O E) as [B' E']. congruence.
  - intros [t|]; [|reflexivity]. destruct d; reflexivity.
Qed.
Print Assumptions C131_delete.
Example C131_delete_case : lbd_setup "missing" "wrong" (fun _ => None) (Ok "multinest"%string) = Ok true /\ lbd_setup "missing" "wrong" (fun _ => None) (Ok "test"%string) = Ok false /\
  lbd_setup "missing" "wrong" (fun n => if String.eqb n "keep_bnl" then Some (OBool true) else None) (Ok "multinest"%string) = Ok false.
Proof. repeat split. Qed.

(** ** C132 *)
(** On the same cosmology the module and the class compute one table, or fail alike. *)
Theorem C132_same : forall E mass kv b v, least_squares (em_fit E) -> lb_vector b = Ok v -> lbc_vector E b = Ok v ->
  agree transposed (lb_fresh E mass kv b) (lbc_fresh E mass kv b).
Proof. exact fresh_class. Qed.
Print Assumptions C132_same.

(** The fitted shot noise is the mean of the power between 100 and 200 h/Mpc. *)
Theorem C132_shot : forall fit xs ys, least_squares fit -> List.length xs = List.length ys -> ys <> [] -> fit xs ys = Ok (mean ys).
Proof. exact least_squares_mean. Qed.
Print Assumptions C132_shot.
Example C132_shot_case : least_squares mean_fit /\ mean_fit [0; 1] [3; 5] = Ok 4.
Proof. split; [exact mean_fit_ls|]. unfold mean_fit, mean. cbn. f_equal. lra. Qed.

(** What the power-spectrum module is handed: the interpolation of the class, symmetric in the masses. *)
Theorem C132_handed : forall E mass kv b t nz, least_squares (em_fit E) -> lb_fresh E mass kv b = Ok t ->
  exists v g B, lb_vector b = Ok v /\ build_interp (em_phh E v) (em_plin E v) (em_quadratic E) (em_Om E v) (1 / 100) = Ok g /\
    lb_handed nz (List.length mass) (List.length kv) (Some t) = Some (BetaArray B) /\
    forall z i j k, (i < List.length mass)%nat -> (j < List.length mass)%nat -> (k < List.length kv)%nat ->
      B z i j k = g (log10 (nth i mass 0)) (log10 (nth j mass 0)) (log10 (nth k kv 0)) /\ B z i j k = B z j i k.
Proof.
  intros E mass kv b t nz F H. destruct (fresh_entry E mass kv b t F H) as (v & g & f & V & G & -> & En).
  exists v, g. eexists. split; [exact V|]. split; [exact G|]. split; [apply handed_legacy|]. cbn beta. intros _. exact En.
Qed.
Print Assumptions C132_handed.

(** The array of bnl_interface_class.py has another order of axes: it does not fit, unless there are
    as many wavenumbers as masses, and then the first mass is read as a wavenumber. *)
Theorem C132_class_layout : forall E mass kv b t nz, lbc_fresh E mass kv b = Ok t ->
  exists g, t = NdFour 1 (List.length kv) (List.length mass) (List.length mass) g /\
    lb_handed nz (List.length mass) (List.length kv) (Some t) = if Nat.eqb (List.length kv) (List.length mass) then Some (BetaArray (fun _ => g 0%nat)) else None.
Proof.
  intros E mass kv b t nz. unfold lbc_fresh. destruct (lbc_vector E b); cbn [bind]; [|discriminate].
  unfold bnl. destruct (build_interp _ _ _ _ _); cbn [bind]; [|discriminate]. intro H. injection H as <-.
  eexists. split; [reflexivity|]. apply handed_class.
Qed.
Print Assumptions C132_class_layout.
Theorem C132_class_layout_refuted : exists E mass kv b t B, lbc_fresh E mass kv b = Ok t /\ lb_handed 1 (List.length mass) (List.length kv) (Some t) = Some (BetaArray B) /\
  forall t', lb_fresh E mass kv b = Ok t' -> exists B', lb_handed 1 (List.length mass) (List.length kv) (Some t') = Some (BetaArray B') /\
    B 0%nat 0%nat 0%nat 1%nat < 0 < B' 0%nat 0%nat 0%nat 1%nat.
Proof.
  set (b := toy_block 1). destruct (lbc_vector toy b) as [v|] eqn:V; [|cbn in V; discriminate].
  destruct (toy_interp v) as (g & B & N & P).
  exists toy, [1; 1], [1 / 1000; 200], b. eexists. eexists. split; [|split].
  - unfold lbc_fresh. rewrite V. cbn [bind]. unfold bnl. rewrite B. cbn [bind]. reflexivity.
  - cbn [List.length]. apply (handed_class 1 2 2).
  - intros t' F. destruct (C132_handed toy [1; 1] [1 / 1000; 200] b t' 1 mean_fit_ls F) as (v' & g' & B' & V' & G' & H' & En).
    exists B'. split; [exact H'|]. destruct (toy_interp v') as (g2 & B2 & _ & P2). rewrite G' in B2. injection B2 as <-. split.
    + cbn [nth]. rewrite BnlFacts2.bnl_table_entry by (cbn; lia). cbn [nth]. apply N.
    + rewrite (proj1 (En 0%nat 0%nat 0%nat 1%nat ltac:(cbn; lia) ltac:(cbn; lia) ltac:(cbn; lia))). cbn [nth]. apply P2.
Qed.
Print Assumptions C132_class_layout_refuted.

(** The cosmologies: they coincide exactly if the dark energy does, after the class has taken off
    the neutrinos and both are clipped. *)
Theorem C132_cosmology : forall E b h A ob oc om ol ns w, reads b cosmology "h0" h -> reads b cosmology "A_s" A -> reads b cosmology "omega_b" ob -> reads b cosmology "omega_c" oc ->
  reads b cosmology "omega_m" om -> reads b cosmology "omega_lambda" ol -> reads b cosmology "n_s" ns -> reads b cosmology "w" w ->
  reads b cosmology "ombh2" (ob * fpow h 2) -> reads b cosmology "omch2" (oc * fpow h 2) ->
  exists v v', lb_vector b = Ok v /\ lbc_vector E b = Ok v' /\
    (v = v' <-> clamp1 ol (54752 / 100000, 82128 / 100000) = clamp1 (1 - om - 64 / 100000) (54752 / 100000, 82128 / 100000)).
Proof. exact vectors. Qed.
Print Assumptions C132_cosmology.
(** In a flat universe inside the emulator's range they differ. *)
Definition flat_block : dblock := fun s n =>
  if String.eqb s cosmology then
    if String.eqb n "h0" then Some (BDbl 1) else if String.eqb n "A_s" then Some (BDbl (2 / 10 ^ 9)) else
    if String.eqb n "omega_m" then Some (BDbl (3 / 10)) else if String.eqb n "omega_lambda" then Some (BDbl (7 / 10)) else
    if String.eqb n "w" then Some (BDbl (-1)) else if String.eqb n "n_s" then Some (BDbl 1) else
    if (String.eqb n "omega_b" || String.eqb n "ombh2")%bool then Some (BDbl (1 * fpow 1 2)) else if (String.eqb n "omega_c" || String.eqb n "omch2")%bool then Some (BDbl (1 * fpow 1 2)) else None
  else None.
Theorem C132_cosmology_refuted : exists b om, reads b cosmology "omega_m" om /\ reads b cosmology "omega_lambda" (1 - om) /\
  forall E, exists v v', lb_vector b = Ok v /\ lbc_vector E b = Ok v' /\ v <> v'.
Proof.
  exists flat_block, (3 / 10). split; [now left|]. split; [left; cbn; do 2 f_equal; lra|]. intro E.
  assert (F : fpow 1 2 = 1). { unfold fpow. destruct (Rle_dec 1 0); [lra|]. unfold Rpower. rewrite ln_1, Rmult_0_r. apply exp_0. }
  destruct (vectors E flat_block 1 (2 / 10 ^ 9) 1 1 (3 / 10) (7 / 10) 1 (-1)) as (v & v' & V & V' & I); try (now left); try (left; cbn; do 2 f_equal; rewrite F; lra).
  exists v, v'. split; [exact V|]. split; [exact V'|]. rewrite I, !clamp1_in by lra. lra.
Qed.
Print Assumptions C132_cosmology_refuted.

(** The masses of the module. *)
Theorem C132_masses : forall missing wrong o flag c, lb_setup missing wrong o flag = Ok c -> exists lo hi n,
  gives o "log_mass_min" lo /\ gives o "log_mass_max" hi /\ o "nmass"%string = Some (OInt n) /\ n <> 0%Z /\ lo <> hi /\
  ((0 < n)%Z -> List.length (bc_mass c) = Z.to_nat n /\
    forall i, (i < Z.to_nat n)%nat -> nth i (bc_mass c) 0 = pow10 (lo + INR i * ((hi - lo) / IZR n))).
Proof. exact setup_masses. Qed.
Print Assumptions C132_masses.
Example C132_case : exists t f, lb_fresh toy [1; 10] [1 / 1000; 200] (toy_block 1) = Ok t /\ t = NdFour 1 2 2 2 f /\ f 0%nat 1%nat 0%nat 0%nat < 0 < f 0%nat 0%nat 1%nat 1%nat.
Proof.
  destruct (lb_vector (toy_block 1)) as [v|] eqn:V; [|cbn in V; discriminate].
  destruct (toy_interp v) as (g & B & N & P).
  pose proof (interpolation_class (em_phh toy v) (em_plin toy v) (em_quadratic toy) (em_fit toy) (em_Om toy v) mean_fit_ls) as I. rewrite B in I.
  destruct (lb_interpolation _ _ _ _ _) as [f|] eqn:L; cbn [agree] in I; [|easy].
  eexists. eexists. split; [unfold lb_fresh; rewrite V; cbn [bind]; rewrite L; reflexivity|]. split; [reflexivity|].
  cbn beta. rewrite !lb_table_entry by (cbn; lia). cbn [nth]. rewrite !I. split; [apply N|apply P].
Qed.
Print Assumptions C132_case.
