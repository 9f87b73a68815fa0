(** Facts about the quadrature projection. *)
From Coquelicot Require Import Coquelicot.
From Coq Require Import Lia.
From Verif Require Import Base Spec Quad Interp FftModel FftSpec BaseFacts QuadFacts InterpFacts UellModel UellSpec UellFacts
  RsModel RsSpec RsFacts RsFacts2 OgataModel OgataSpec.
Open Scope R_scope.

Lemma make_shape ty n k_min k_max lo hi O : 0 < k_min -> k_min < k_max -> make_ogata ty n k_min k_max lo hi = Ok O ->
  (2 <= n)%nat /\ o_n O = n /\ o_lo O = lo /\ o_hi O = hi /\ (ty = "wp"%string /\ o_mu O = 0 \/ ty = "ds"%string /\ o_mu O = 2) /\
  forall i, o_rp O i = log_grid n (/ mid k_min k_max) (step n k_min k_max) i * exp (- step n k_min k_max).
Proof.
  intros K1 K2. unfold make_ogata. destruct (Nat.ltb_spec n 2) as [|N]; [discriminate|]. intros H.
  apply bind_inv in H as (qm & Q & H). injection H as <-. cbn [o_n o_lo o_hi o_mu o_rp].
  split; [exact N|]. do 3 (split; [reflexivity|]). split.
  { unfold transform_parameters in Q. destruct (String.eqb_spec ty "wp") as [->|]; [injection Q as <-; left; auto|].
    destruct (String.eqb_spec ty "ds") as [->|]; [injection Q as <-; right; auto|discriminate]. }
  intros i. rewrite !k_grid by (try lra; lia).
  assert (E : ln (log_grid n (mid k_min k_max) (step n k_min k_max) 1) - ln (log_grid n (mid k_min k_max) (step n k_min k_max) 0) = step n k_min k_max).
  { unfold log_grid. rewrite !ln_mult by apply exp_pos. rewrite !ln_exp. simpl. ring. }
  rewrite E. fold (mid k_min k_max). unfold log_grid. rewrite Rmult_assoc, <- exp_plus. unfold Rdiv. rewrite Rmult_1_l, Rmult_comm.
  f_equal. f_equal. field.
Qed.

Lemma ogata_rp_pos ty n k_min k_max lo hi O i : 0 < k_min -> k_min < k_max -> make_ogata ty n k_min k_max lo hi = Ok O -> 0 < o_rp O i.
Proof.
  intros K1 K2 MK. destruct (make_shape _ _ _ _ _ _ _ K1 K2 MK) as (_ & _ & _ & _ & _ & E). rewrite E. unfold log_grid.
  repeat apply Rmult_lt_0_compat; try apply exp_pos. apply Rinv_0_lt_compat, exp_pos.
Qed.

Lemma ogata_rp_step ty n k_min k_max lo hi O i : 0 < k_min -> k_min < k_max -> make_ogata ty n k_min k_max lo hi = Ok O ->
  o_rp O (S i) = o_rp O i * exp (step n k_min k_max) /\ o_rp O i < o_rp O (S i).
Proof.
  intros K1 K2 MK. pose proof (ogata_rp_pos _ _ _ _ _ _ _ i K1 K2 MK) as P.
  destruct (make_shape _ _ _ _ _ _ _ K1 K2 MK) as (N & _ & _ & _ & _ & E).
  assert (S1 : o_rp O (S i) = o_rp O i * exp (step n k_min k_max)).
  { rewrite !E. unfold log_grid. rewrite !Rmult_assoc, <- !exp_plus, S_INR. f_equal. f_equal. ring. }
  split; [exact S1|]. rewrite S1. assert (0 < step n k_min k_max).
  { assert (ln k_min < ln k_max) by (apply ln_increasing; lra).
    unfold step. apply Rdiv_lt_0_compat; [lra|apply lt_0_INR; lia]. }
  assert (1 < exp (step n k_min k_max)) by (rewrite <- exp_0; apply exp_increasing; assumption). nra.
Qed.

Lemma evaluate_shape ht O n k p : map fst (ogata_evaluate ht O n k p) = map (o_rp O) (o_kept O).
Proof. unfold ogata_evaluate. rewrite map_map. reflexivity. Qed.

Lemma kept_spec O i : In i (o_kept O) <-> (i < o_n O)%nat /\ o_lo O < o_rp O i < o_hi O.
Proof.
  unfold o_kept. rewrite filter_In, in_seq. unfold o_in_range.
  destruct (Rlt_dec (o_lo O) (o_rp O i)), (Rlt_dec (o_rp O i) (o_hi O)); cbn; split; intros [A B]; try discriminate; split; try lia; try lra; auto.
Qed.

Lemma evaluate_in ht O n k p q : In q (ogata_evaluate ht O n k p) <->
  exists i, (i < o_n O)%nat /\ o_lo O < o_rp O i < o_hi O /\ q = (o_rp O i, ogata_xi ht O n k p i).
Proof.
  unfold ogata_evaluate. rewrite in_map_iff. split.
  - intros (i & E & H). apply kept_spec in H as [A B]. exists i. auto.
  - intros (i & A & B & ->). exists i. split; [reflexivity|]. apply kept_spec. auto.
Qed.

(** ** Values *)
Lemma change_scale g r K v : 0 < r -> is_RInt g 0 K v -> is_RInt (fun x => / r * g (x / r)) 0 (K * r) v.
Proof.
  intros Hr H. assert (B : is_RInt g (/ r * 0 + 0) (/ r * (K * r) + 0) v).
  { replace (/ r * 0 + 0) with 0 by ring. replace (/ r * (K * r) + 0) with K by (field; lra). exact H. }
  apply (is_RInt_comp_lin g (/ r) 0 0 (K * r) v) in B.
  eapply is_RInt_ext; [|exact B]. intros x _. unfold scal; simpl; unfold mult; simpl.
  replace (/ r * x + 0) with (x / r) by (unfold Rdiv; ring). reflexivity.
Qed.

Lemma xi_plain ht O J K n k p i v : 0 < o_rp O i -> plain_law ht (o_mu O) J (K * o_rp O i) ->
  projected J (interp_lin n k p) K (o_rp O i) v -> ogata_xi ht O n k p i = v / (2 * PI).
Proof.
  intros Hr HL HI. pose proof PI_RGT_0. unfold ogata_xi. set (r := o_rp O i) in *.
  rewrite (HL _ (r ^ 2 * v)); [field; lra|].
  pose proof (change_scale _ r K v Hr HI) as C.
  eapply is_RInt_ext; [|apply (is_RInt_scal (V := R_NormedModule) _ _ _ (r ^ 2) _ C)].
  intros x _. unfold scal; simpl; unfold mult; simpl. match goal with |- ?a = ?b => change (@eq R a b) end.
  replace (x / r * r) with x by (field; lra). field. lra.
Qed.

Lemma xi_hankel ht O J K n k p i v : 0 < o_rp O i -> hankel_law ht (o_mu O) J (K * o_rp O i) ->
  projected_k J (interp_lin n k p) K (o_rp O i) v -> ogata_xi ht O n k p i = o_rp O i * v / (2 * PI).
Proof.
  intros Hr HL HI. pose proof PI_RGT_0. unfold ogata_xi. set (r := o_rp O i) in *.
  rewrite (HL _ 1 (r ^ 3 * v) Rlt_0_1); [field; lra|].
  pose proof (change_scale _ r K v Hr HI) as C.
  eapply is_RInt_ext; [|apply (is_RInt_scal (V := R_NormedModule) _ _ _ (r ^ 3) _ C)].
  intros x _. unfold scal; simpl; unfold mult; simpl. match goal with |- ?a = ?b => change (@eq R a b) end.
  replace (x / r * r) with x by (field; lra). rewrite Rmult_1_l. field. lra.
Qed.

(** A value depends on its separation only, not on the grid it is computed on. *)
Lemma xi_local ht O O' n k p i i' : o_mu O = o_mu O' -> o_rp O i = o_rp O' i' -> ogata_xi ht O n k p i = ogata_xi ht O' n k p i'.
Proof. intros E F. unfold ogata_xi. rewrite E, F. reflexivity. Qed.

Lemma setup_iff ty n k_min k_max lo hi :
  (ogata_setup ty n k_min k_max lo hi = Err "ValueError" <-> ty <> "wp"%string /\ ty <> "ds"%string) /\
  (ty = "wp"%string \/ ty = "ds"%string -> (2 <= n)%nat -> exists O, ogata_setup ty n k_min k_max lo hi = Ok O /\ make_ogata ty n k_min k_max lo hi = Ok O).
Proof.
  unfold ogata_setup. cbn [existsb]. split.
  - destruct (String.eqb_spec ty "wp") as [->|A]; cbn [orb].
    + split; [|intros [H _]; congruence]. unfold make_ogata. destruct (Nat.ltb n 2); cbn; discriminate.
    + destruct (String.eqb_spec ty "ds") as [->|B]; cbn [orb]; [|tauto].
      split; [|intros [_ H]; congruence]. unfold make_ogata. destruct (Nat.ltb n 2); cbn; discriminate.
  - intros H N. unfold make_ogata. destruct (Nat.ltb_spec n 2); [lia|]. destruct H as [-> | ->]; cbn; eexists; split; reflexivity.
Qed.

(** ** Projection over the redshift distribution *)
Theorem ogata_value ht O J sections ns r : ogata_project ht O J sections ns = Ok r ->
  exists nsv nb, ns = Some nsv /\ bin_count J = Some nb /\ (1 <= nb)%nat /\ fst r = map (o_rp O) (o_kept O) /\ List.length (snd r) = nb /\
    forall i, (i < nb)%nat -> exists name s f, section_name J i = Some name /\ sections name = Some s /\ n_bin nsv (S i) = Some f /\ (1 <= s_nz s)%nat /\
      List.length (nth i (snd r) []) = List.length (fst r) /\
      forall x y, nth_error (o_kept O) x = Some y -> nth x (nth i (snd r) []) 0
        = simpson (s_nz s) (fun j => load_kernel nsv f (s_z s j) * ogata_xi ht O (s_nk s) (s_k s) (s_pk s j) y) (s_z s).
Proof.
  unfold ogata_project. intros H. apply bind_inv in H as (nb & HB & H).
  destruct ns as [nsv|]; [|destruct (Nat.eqb nb 0); discriminate]. apply bind_inv in H as (outs & HO & H).
  apply collect_spec in HO as [LO NO]. destruct (List.rev outs) as [|o t] eqn:RV; [discriminate|]. injection H as <-. cbn [fst snd].
  assert (BC : bin_count J = Some nb) by (unfold bin_count; destruct (j_suffixes J); [now injection HB as -> |]; destruct (j_nbin J); [now injection HB as -> | discriminate]).
  assert (NB : (1 <= nb)%nat) by (rewrite <- LO, <- rev_length, RV; cbn; lia).
  assert (SH : forall i v, ogata_bin ht O J sections nsv i = Ok v -> fst v = map (o_rp O) (o_kept O)).
  { intros i v E. unfold ogata_bin in E. apply bind_inv in E as (nm & _ & E). apply bind_inv in E as (s & _ & E). destruct (Nat.eqb _ 0); [discriminate|].
    apply bind_inv in E as (f & _ & E). injection E as <-. reflexivity. }
  assert (RP : fst o = map (o_rp O) (o_kept O)).
  { assert (IN : In o outs) by (rewrite in_rev, RV; now left). apply In_nth_error in IN as [i IN]. assert (Hi : (i < nb)%nat) by (rewrite <- LO; apply nth_error_Some; congruence).
    destruct (NO i Hi) as (v & V & E). rewrite IN in E. injection E as ->. now apply (SH i). }
  exists nsv, nb. do 3 (split; [first [reflexivity|assumption]|]). split; [exact RP|]. split; [now rewrite map_length|].
  intros i Hi. destruct (NO i Hi) as (v & V & E). unfold ogata_bin in V. apply bind_inv in V as (nm & HNM & V). apply bind_inv in V as (s & HS & V).
  destruct (Nat.eqb_spec (s_nz s) 0) as [|NZ]; [discriminate|]. apply bind_inv in V as (f & HF & V).
  exists nm, s, f.
  split. { unfold section_name. destruct (j_suffixes J) as [l|]; [destruct (nth_error l i); [|discriminate]|]; injection HNM as <-; reflexivity. }
  split. { destruct (sections nm); [now injection HS as -> | discriminate]. }
  split. { destruct (n_bin nsv (S i)); [now injection HF as -> | discriminate]. }
  split; [lia|].
  assert (NTH : nth i (map snd outs) [] = snd v).
  { assert (nth_error (map snd outs) i = Some (snd v)) by now apply map_nth_error. now apply nth_error_nth. }
  rewrite NTH. injection V as <-. cbn [snd]. rewrite map_length, seq_length, RP, map_length. split; [reflexivity|]. intros x y Hy.
  assert (Hx : (x < List.length (o_kept O))%nat) by (apply nth_error_Some; congruence).
  set (out := fun x => simpson (s_nz s) (fun j => load_kernel nsv f (s_z s j) * snd (nth x (ogata_evaluate ht O (s_nk s) (s_k s) (s_pk s j)) (0, 0))) (s_z s)).
  rewrite (nth_indep _ 0 (out 0%nat)) by (rewrite map_length, seq_length; exact Hx).
  rewrite (map_nth out). rewrite seq_nth by exact Hx. cbn [Nat.add]. unfold out.
  apply simpson_ext; [lia| |reflexivity]. intros j _. f_equal.
  unfold ogata_evaluate. rewrite (nth_error_nth _ x (0, 0) (x := (o_rp O y, ogata_xi ht O (s_nk s) (s_k s) (s_pk s j) y))); [reflexivity|].
  now apply (map_nth_error (fun i => (o_rp O i, ogata_xi ht O (s_nk s) (s_k s) (s_pk s j) i))).
Qed.

Lemma ogata_ok ht O J sections ns nb : bin_count J = Some nb -> (1 <= nb)%nat ->
  (forall i, (i < nb)%nat -> exists name s f, section_name J i = Some name /\ sections name = Some s /\ n_bin ns (S i) = Some f /\ (1 <= s_nz s)%nat) ->
  exists r, ogata_project ht O J sections (Some ns) = Ok r.
Proof.
  intros BC NB H. unfold ogata_project.
  assert (E : (match j_suffixes J with Some l => Ok (List.length l) | None => match j_nbin J with Some n => Ok n | None => Err "BlockNameNotFound" end end) = Ok nb).
  { unfold bin_count in BC. destruct (j_suffixes J); [injection BC as ->; reflexivity|]. rewrite BC. reflexivity. }
  rewrite E. cbn [bind].
  assert (A : forall i, (i < nb)%nat -> exists v, ogata_bin ht O J sections ns i = Ok v).
  { intros i Hi. destruct (H i Hi) as (nm & s & f & N & S & F & Z). unfold ogata_bin. unfold section_name in N.
    assert (M : (match j_suffixes J with Some l => match nth_error l i with Some s => Ok (j_input J ++ "_" ++ s)%string | None => Err "IndexError" end | None => Ok (j_input J) end) = Ok nm).
    { destruct (j_suffixes J) as [l|]; [destruct (nth_error l i); [|discriminate]|]; cbn in N; injection N as <-; reflexivity. }
    rewrite M. cbn [bind]. rewrite S. cbn [bind]. destruct (Nat.eqb_spec (s_nz s) 0); [lia|]. rewrite F. cbn [bind]. eexists; reflexivity. }
  assert (B : exists l, collect nb (ogata_bin ht O J sections ns) = Ok l).
  { clear E H BC NB. revert A. induction nb as [|m IH]; intros A; [exists []; reflexivity|].
    destruct IH as (l & L); [intros i Hi; apply A; lia|]. destruct (A m ltac:(lia)) as (v & V). cbn [collect]. rewrite L. cbn [bind]. rewrite V. eexists; reflexivity. }
  destruct B as (l & L). rewrite L. cbn [bind]. apply collect_spec in L as [LL _].
  destruct (List.rev l) as [|o t] eqn:RV; [|eexists; reflexivity].
  apply (f_equal (@List.length _)) in RV. rewrite rev_length in RV. cbn in RV. lia.
Qed.

Lemma ogata_own ht O J sections sections' ns ns' r r' i name :
  ogata_project ht O J sections (Some ns) = Ok r -> ogata_project ht O J sections' (Some ns') = Ok r' ->
  section_name J i = Some name -> sections name = sections' name -> n_size ns = n_size ns' -> n_z ns = n_z ns' -> n_bin ns (S i) = n_bin ns' (S i) ->
  nth i (snd r) [] = nth i (snd r') [].
Proof.
  intros P P' N S Z1 Z2 F. destruct (ogata_value _ _ _ _ _ _ P) as (v & nb & E & B & NB & RP & L & V).
  destruct (ogata_value _ _ _ _ _ _ P') as (v' & nb' & E' & B' & NB' & RP' & L' & V'). injection E as <-. injection E' as <-.
  rewrite B in B'. injection B' as <-. destruct (Nat.lt_ge_cases i nb) as [Hi|Hi].
  - destruct (V i Hi) as (nm & s & f & N1 & S1 & F1 & Q1 & L1 & V1). destruct (V' i Hi) as (nm' & s' & f' & N2 & S2 & F2 & Q2 & L2 & V2).
    rewrite N in N1, N2. injection N1 as <-. injection N2 as <-. rewrite S1, S2 in S. injection S as <-. rewrite F1, F2 in F. injection F as <-.
    rewrite RP in L1. rewrite RP' in L2. rewrite map_length in L1, L2.
    apply (nth_ext _ _ 0 0); [congruence|]. intros x Hx. rewrite L1 in Hx.
    destruct (nth_error (o_kept O) x) as [y|] eqn:Y; [|apply nth_error_None in Y; lia].
    rewrite (V1 x y Y), (V2 x y Y). apply simpson_ext; [lia| |reflexivity]. intros j _. unfold load_kernel. now rewrite Z1, Z2.
  - rewrite !nth_overflow by lia. reflexivity.
Qed.

(** Linear in the power: interpolation and integral are. *)
Lemma projected_lin J P Q K rp a b u v : projected J P K rp u -> projected J Q K rp v ->
  projected J (fun k => a * P k + b * Q k) K rp (a * u + b * v).
Proof.
  intros HP HQ. unfold projected in *.
  pose proof (is_RInt_plus (V := R_NormedModule) _ _ _ _ _ _ (is_RInt_scal (V := R_NormedModule) _ _ _ a _ HP) (is_RInt_scal (V := R_NormedModule) _ _ _ b _ HQ)) as H.
  eapply is_RInt_ext; [|exact H]. intros x _. unfold plus, scal; simpl; unfold mult; simpl.
  match goal with |- ?a = ?b => change (@eq R a b) end. ring.
Qed.

(** ** Cases *)
Definition plain_ht (J : R -> R) (X : R) (nu : R) (f : R -> R) (k : R) : R := RInt (fun x => f x * J x) 0 X.
Lemma plain_ht_law J X nu : plain_law (plain_ht J X) nu J X.
Proof. intros f v H. apply is_RInt_unique, H. Qed.

Definition one1 : A1 := fun _ => 1.
Definition idx1 : A1 := fun i => INR i.
Lemma interp_one q : interp_lin 2 idx1 one1 q = 1.
Proof. unfold one1. apply interp_const; [lia|]. intros i Hi. unfold idx1. rewrite S_INR. lra. Qed.

Lemma toy_one_pos : 1 < exp 1. Proof. rewrite <- exp_0 at 1. apply exp_increasing. lra. Qed.

Lemma toy_ogata : exists O, make_ogata "wp" 2 1 (exp 1) 0 1 = Ok O /\ o_rp O 0%nat = exp (-2) /\ o_rp O 1%nat = exp (-1) /\ o_kept O = [0%nat; 1%nat].
Proof.
  destruct (proj2 (setup_iff "wp" 2 1 (exp 1) 0 1) (or_introl eq_refl) (le_n 2)) as (O & _ & MK). exists O. split; [exact MK|].
  destruct (make_shape _ _ _ _ _ _ _ Rlt_0_1 toy_one_pos MK) as (_ & ON & OL & OH & _ & E).
  assert (R0 : o_rp O 0%nat = exp (-2)).
  { rewrite E. unfold log_grid, mid, step. rewrite ln_1, ln_exp. rewrite <- exp_Ropp, <- !exp_plus. cbn. f_equal. field. }
  assert (R1 : o_rp O 1%nat = exp (-1)).
  { rewrite E. unfold log_grid, mid, step. rewrite ln_1, ln_exp. rewrite <- exp_Ropp, <- !exp_plus. cbn. f_equal. field. }
  split; [exact R0|]. split; [exact R1|].
  assert (A : forall x, x < 0 -> exp x < 1) by (intros x Hx; rewrite <- exp_0; apply exp_increasing, Hx).
  unfold o_kept. rewrite ON. cbn [seq filter].
  assert (I0 : o_in_range O 0 = true).
  { unfold o_in_range. rewrite R0, OL, OH. pose proof (exp_pos (-2)). pose proof (A (-2) ltac:(lra)).
    destruct (Rlt_dec 0 (exp (-2))); [|contradiction]. destruct (Rlt_dec (exp (-2)) 1); [reflexivity|contradiction]. }
  assert (I1 : o_in_range O 1 = true).
  { unfold o_in_range. rewrite R1, OL, OH. pose proof (exp_pos (-1)). pose proof (A (-1) ltac:(lra)).
    destruct (Rlt_dec 0 (exp (-1))); [|contradiction]. destruct (Rlt_dec (exp (-1)) 1); [reflexivity|contradiction]. }
  rewrite I0, I1. reflexivity.
Qed.

Lemma toy_projected K rp : projected (fun _ => 1) (interp_lin 2 idx1 one1) K rp (K ^ 2 / 2) /\ projected_k (fun _ => 1) (interp_lin 2 idx1 one1) K rp (K ^ 3 / 3).
Proof.
  split.
  - replace (K ^ 2 / 2) with (minus (K ^ 2 / 2) (0 ^ 2 / 2)) by (unfold minus, plus, opp; simpl; field).
    unfold projected. apply (is_RInt_ext (fun k => k)); [intros x _; rewrite interp_one; match goal with |- ?a = ?b => change (@eq R a b) end; ring|].
    apply (is_RInt_derive (fun x => x ^ 2 / 2) (fun x => x)).
    + intros x _. auto_derive; [exact I|]. field.
    + intros x _. apply continuous_id.
  - replace (K ^ 3 / 3) with (minus (K ^ 3 / 3) (0 ^ 3 / 3)) by (unfold minus, plus, opp; simpl; field).
    unfold projected_k. apply (is_RInt_ext (fun k => k ^ 2)); [intros x _; rewrite interp_one; match goal with |- ?a = ?b => change (@eq R a b) end; ring|].
    apply (is_RInt_derive (fun x => x ^ 3 / 3) (fun x => x ^ 2)).
    + intros x _. auto_derive; [exact I|]. field.
    + intros x _. apply (ex_derive_continuous (fun x => x ^ 2)). auto_derive. exact I.
Qed.

Lemma not_projected : exists O J ht v, make_ogata "wp" 2 1 (exp 1) 0 1 = Ok O /\ hankel_law ht (o_mu O) J (1 * o_rp O 0%nat) /\
  projected J (interp_lin 2 idx1 one1) 1 (o_rp O 0%nat) v /\ ogata_xi ht O 2 idx1 one1 0 <> v / (2 * PI).
Proof.
  destruct toy_ogata as (O & MK & R0 & _). destruct (toy_projected 1 (o_rp O 0%nat)) as [P1 P2].
  exists O, (fun _ => 1), (exact_ht (fun _ => 1) (1 * o_rp O 0%nat)), (1 ^ 2 / 2).
  split; [exact MK|]. split; [apply exact_ht_law|]. split; [exact P1|].
  assert (RP : 0 < o_rp O 0%nat) by (rewrite R0; apply exp_pos).
  rewrite (xi_hankel _ O (fun _ => 1) 1 2 idx1 one1 0%nat _ RP (exact_ht_law _ _ _) P2).
  assert (o_rp O 0%nat < 1) by (rewrite R0, <- exp_0; apply exp_increasing; lra).
  pose proof PI_RGT_0 as HP. unfold Rdiv. intros E. apply Rmult_eq_reg_r in E; [nra|]. apply Rinv_neq_0_compat. lra.
Qed.

Lemma ogata_no_bins ht O J sections ns : bin_count J = Some 0%nat -> ogata_project ht O J sections ns = Err "UnboundLocalError".
Proof.
  intros B. unfold ogata_project, bin_count in *.
  destruct (j_suffixes J) as [l|]; [injection B as E; rewrite E|rewrite B]; cbn; destruct ns; reflexivity.
Qed.
