(** Concrete cases for the real-space properties, and the remaining small lemmas. *)
From Coq Require Import ZArith Lia.
From Verif Require Import Base Spec Quad Interp BaseFacts QuadFacts FftModel FftSpec FftFacts FftFacts5 FftFacts6 RsModel RsSpec RsFacts RsFacts2 RsFacts3 FftFacts7.
Open Scope R_scope.

Lemma set_up lgr lgi ty n k_min k_max lo hi : 0 < k_min -> k_min < k_max ->
  (ty = "wp"%string \/ ty = "ds"%string -> (2 <= n)%nat -> exists T, make_transformer lgr lgi ty n k_min k_max lo hi = Ok T) /\
  forall T, make_transformer lgr lgi ty n k_min k_max lo hi = Ok T ->
    (ty = "wp"%string /\ t_mu T = 0 \/ ty = "ds"%string /\ t_mu T = 2) /\
    0 < t_kr T /\ Rabs (ln (t_kr T)) <= step n k_min k_max / 2 /\ low_ringing lgi (t_mu T) 0 (step n k_min k_max) (t_kr T) /\
    (forall i, (i < n)%nat -> t_k T i = log_grid n (mid k_min k_max) (step n k_min k_max) i) /\
    forall n_in k_in pk, exists pts, transform T n_in k_in pk = Ok pts.
Proof.
  intros K1 K2. split; [intros TY N; now apply make_total|]. intros T MK. destruct (make_spec lgr lgi _ _ _ _ _ _ _ K1 K2 MK) as (N & DP & TN & TQ & TL & TH & TY & KP & KB & LR & W & TK & TRP).
  repeat (split; [assumption|]). intros n_in k_in pk. apply (transform_ok lgr lgi T (step n k_min k_max)); rewrite ?TN; try assumption; lia.
Qed.
Lemma one_step_off lgr lgi ty n k_min k_max lo hi T : 0 < k_min -> k_min < k_max ->
  make_transformer lgr lgi ty n k_min k_max lo hi = Ok T -> let D := step n k_min k_max in let c := mid k_min k_max in
  forall j, t_rp T j < log_grid n (t_kr T / c) D j /\ t_rp T (S j) = log_grid n (t_kr T / c) D j.
Proof.
  intros K1 K2 MK D c j. destruct (make_spec lgr lgi _ _ _ _ _ _ _ K1 K2 MK) as (N & DP & TN & TQ & TL & TH & TY & KP & KB & LR & W & TK & TRP).
  rewrite !TRP. fold D c. assert (CP : 0 < c) by apply exp_pos. split.
  - pose proof (log_grid_pos n (t_kr T / c) D j (Rdiv_lt_0_compat _ _ KP CP)) as P. rewrite <- (Rmult_1_r (log_grid n (t_kr T / c) D j)) at 2. apply Rmult_lt_compat_l; [exact P|]. rewrite <- exp_0. apply exp_increasing. change (0 < D) in DP. lra.
  - unfold log_grid. rewrite Rmult_assoc, <- exp_plus, S_INR. f_equal. f_equal. ring.
Qed.
Lemma two_poles n dlnr kr kropt : (1 <= n)%nat -> (kropt <= 2)%nat -> fhti gam0 gam0 n (-3) dlnr 2 kr kropt = Err "ValueError".
Proof. intros A B. destruct (fhti_two_poles n dlnr kr kropt) as [H|[H|H]]; [exact H|lia|lia]. Qed.
Lemma no_bins T J rho sections ns : bin_count J = Some 0%nat -> j_type J <> "ds"%string -> project T J rho sections (Some ns) = Err "UnboundLocalError".
Proof.
  intros B D. unfold project, mean_density. destruct (String.eqb_spec (j_type J) "ds"); [contradiction|]. cbn [bind]. unfold bin_count in B.
  destruct (j_suffixes J) as [l|]; [injection B as ->; reflexivity|]. rewrite B. reflexivity.
Qed.
Lemma correct_rejected run data nb ty z b : List.length z <> nb \/ (ty <> "wp"%string /\ ty <> "ds"%string /\ (1 <= nb)%nat) -> correct run data nb ty z b = (b, Err "ValueError").
Proof. intros [H|(A & B & C)]; [now apply correct_bad_length|now apply correct_bad_type]. Qed.
Lemma theta_angle other out vals u : supported out -> supported u \/ u = "radian"%string \/ u = "radians"%string ->
  exists vals' s s', theta_execute other out (vals, u) = Ok (vals', out) /\ unit_size other (canon u) = Some s /\ unit_size other out = Some s' /\ 0 < s' /\ forall i, vals' i * s' = vals i * s.
Proof.
  intros SO SU. apply theta_value; [exact SO|]. assert (S : supported (canon u)) by (destruct SU as [H|[-> | ->]]; [rewrite canon_supported by exact H; exact H|cbn; tauto|cbn; tauto]). now apply unit_pos.
Qed.
Lemma theta_sixty other vals : exists v1 v2 v3, theta_execute other "deg" (vals, "radians"%string) = Ok (v1, "deg"%string) /\
  theta_execute other "arcmin" (v1, "deg"%string) = Ok (v2, "arcmin"%string) /\ theta_execute other "arcsec" (v2, "arcmin"%string) = Ok (v3, "arcsec"%string) /\
  forall i, v1 i = vals i * 180 / PI /\ v2 i = 60 * v1 i /\ v3 i = 60 * v2 i.
Proof.
  eexists _, _, _. split; [reflexivity|]. split; [reflexivity|]. split; [reflexivity|]. intros i. cbn. pose proof PI_RGT_0. repeat split; field; lra.
Qed.

(** ** Cases *)
Lemma toy_step : step 4 1 (exp 3) = 1. Proof. unfold step. rewrite ln_exp, ln_1. cbn. field. Qed.
Lemma toy_max : 1 < exp 3. Proof. rewrite <- exp_0. apply exp_increasing. lra. Qed.
Definition toy_pk (i : nat) : R := cos (2 * mode_freq 4 1 1 * ln (log_grid 4 (mid 1 (exp 3)) 1 i) + 0) / log_grid 4 (mid 1 (exp 3)) 1 i.
Lemma toy_kept T : make_transformer gam0 gam0 "wp" 4 1 (exp 3) 0 1000 = Ok T -> kept T = [0%nat; 1%nat; 2%nat; 3%nat].
Proof.
  intros MK. destruct (make_spec gam0 gam0 _ _ _ _ _ _ _ Rlt_0_1 toy_max MK) as (N & DP & TN & TQ & TL & TH & TY & KP & KB & LR & W & TK & TRP).
  rewrite toy_step in *. assert (CP : 0 < mid 1 (exp 3)) by apply exp_pos.
  assert (IR : forall j, (j < 4)%nat -> in_range T j = true).
  { intros j Hj. unfold in_range. rewrite TL, TH, TRP. assert (LP : 0 < log_grid 4 (t_kr T / mid 1 (exp 3)) 1 j) by (apply log_grid_pos, Rdiv_lt_0_compat; assumption).
    assert (EP : 0 < exp (- (1))) by apply exp_pos.
    assert (B : log_grid 4 (t_kr T / mid 1 (exp 3)) 1 j * exp (- (1)) < 1000).
    { apply Rlt_trans with 1; [|lra]. unfold log_grid, mid. rewrite ln_exp, ln_1. rewrite <- (exp_ln (t_kr T)) by exact KP. unfold Rdiv. rewrite <- exp_Ropp, <- !exp_plus. apply Rlt_le_trans with (exp 0); [|rewrite exp_0; lra]. apply exp_increasing.
      assert (ln (t_kr T) <= 1 / 2) by (apply Rle_trans with (Rabs (ln (t_kr T))); [apply Rle_abs|exact KB]). assert (INR j <= 3) by (replace 3 with (INR 3) by (cbn; lra); apply le_INR; lia). replace (INR 4) with 4 by (cbn; lra). lra. }
    destruct (Rlt_dec 0 (log_grid 4 (t_kr T / mid 1 (exp 3)) 1 j * exp (- (1)))) as [|X]; [|exfalso; apply X; now apply Rmult_lt_0_compat]. destruct (Rlt_dec _ 1000); [reflexivity|lra]. }
  unfold kept. rewrite TN. cbn [seq filter]. rewrite !IR by lia. reflexivity.
Qed.
Lemma toy_transform : exists T pts, make_transformer gam0 gam0 "wp" 4 1 (exp 3) 0 1000 = Ok T /\
  transform T 4 (log_grid 4 (mid 1 (exp 3)) 1) toy_pk = Ok pts /\ List.length pts = 4%nat /\
  (forall i, (i < 4)%nat -> log_grid 4 (mid 1 (exp 3)) 1 i * log_interp 4 (log_grid 4 (mid 1 (exp 3)) 1) toy_pk (log_grid 4 (mid 1 (exp 3)) 1 i)
     = cos (2 * mode_freq 4 1 1 * ln (log_grid 4 (mid 1 (exp 3)) 1 i) + 0)).
Proof.
  destruct (set_up gam0 gam0 "wp" 4 1 (exp 3) 0 1000 ltac:(lra) toy_max) as [MK ST]. destruct MK as [T MK]; [now left|lia|]. destruct (ST T MK) as (_ & _ & _ & _ & _ & TR).
  destruct (TR 4%nat (log_grid 4 (mid 1 (exp 3)) 1) toy_pk) as (pts & E). exists T, pts. split; [exact MK|]. split; [exact E|]. split.
  - destruct (transform_shape _ _ _ _ _ E) as [L _]. rewrite L, (toy_kept T MK). reflexivity.
  - assert (CP : 0 < mid 1 (exp 3)) by apply exp_pos. intros i Hi. rewrite log_interp_node; [|lia|intros l _; now apply log_grid_pos| |exact Hi].
    + unfold toy_pk. field. apply Rgt_not_eq, log_grid_pos, CP.
    + intros l Hl. unfold log_grid. apply Rmult_lt_compat_l; [exact CP|]. apply exp_increasing. rewrite (S_INR l). lra.
Qed.
Lemma gam0_axis : real_axis gam0. Proof. intros x. exists 0%Z. unfold gam0. ring. Qed.
Lemma no_pole_pos mu q : 0 < mu + 1 + q -> 0 < mu + 1 - q -> no_pole mu q.
Proof. intros A B n. pose proof (pos_INR n). split; lra. Qed.
Lemma toy_biased : no_pole 0 (1 / 2) /\ real_axis gam0 /\ exists kr xs, fhti gam0 gam0 5 0 1 (1 / 2) 1 1 = Ok (kr, xs).
Proof.
  assert (NP : no_pole 0 (1 / 2)) by (apply no_pole_pos; lra). split; [exact NP|]. split; [exact gam0_axis|].
  destruct (fhti_ok gam0 gam0 5 0 1 (1 / 2) 1 1 ltac:(lia) ltac:(lia) (or_intror (conj NP gam0_axis))) as (kr & xs & E & _). eauto.
Qed.
Lemma toy_even : exists kr xs, fhti gam0 gam0 6 2 (1 / 3) (1 / 2) 1 1 = Ok (kr, xs) /\ low_ringing gam0 2 (1 / 2) (1 / 3) kr /\ no_pole 2 (1 / 2) /\ real_axis gam0.
Proof.
  assert (NP : no_pole 2 (1 / 2)) by (apply no_pole_pos; lra).
  destruct (fhti_ok gam0 gam0 6 2 (1 / 3) (1 / 2) 1 1 ltac:(lia) ltac:(lia) (or_intror (conj NP gam0_axis))) as (kr & xs & E & _). exists kr, xs. split; [exact E|].
  split; [|split; [exact NP|exact gam0_axis]]. now apply (kr_chosen gam0 gam0 6 2 (1 / 3) (1 / 2) 1 kr xs ltac:(lra) ltac:(lra)).
Qed.
Definition toy_job : job := {| j_type := "wp"; j_suffixes := Some ["a"; "b"]%string; j_input := "galaxy_power"; j_nbin := None |}.
Definition toy_section : pk_section := {| s_nz := 3; s_z := fun i => INR i; s_nk := 4; s_k := log_grid 4 (mid 1 (exp 3)) 1; s_pk := fun j i => toy_pk i |}.
Definition toy_nz : nz_section := {| n_size := 3; n_z := fun i => INR i; n_bin := fun i => Some (fun _ => 1) |}.
Lemma toy_project : exists T r, make_transformer gam0 gam0 "wp" 4 1 (exp 3) 0 1000 = Ok T /\
  project T toy_job (0%nat, fun _ => 0) (fun _ => Some toy_section) (Some toy_nz) = Ok r /\ List.length (snd r) = 2%nat.
Proof.
  destruct toy_transform as (T & pts & MK & TR & _). exists T. unfold project, mean_density. cbn [toy_job j_type j_suffixes j_input j_nbin String.eqb Ascii.eqb Bool.eqb bind fst snd List.length collect].
  unfold one_bin. cbn [toy_job j_type j_suffixes j_input j_nbin nth_error bind toy_section s_nz s_nk s_k s_pk Nat.eqb collect toy_nz n_bin]. change (fun i : nat => toy_pk i) with toy_pk. rewrite TR. cbn [bind app List.rev]. eexists. split; [exact MK|]. split; reflexivity.
Qed.
Definition toy_cosmo (s : R) : cosmo := {| c_h := 1; c_dist := fun z => s * z; c_e := fun z => 1 + z; c_da := fun z => s * z / (1 + z); c_da12 := fun z1 z2 => s * (z2 - z1) / (1 + z2) |}.
Lemma toy_reg s z : 0 < s -> 0 < z < 6 / 10 -> regular (toy_cosmo s) z.
Proof.
  intros S Z. unfold regular, toy_cosmo. cbn. repeat split; apply Rgt_not_eq, Rlt_gt; try apply Rdiv_lt_0_compat; try apply Rmult_lt_0_compat; lra.
Qed.
Lemma toy_compounds : exists run data z b b', regular run z /\ regular data z /\ correct run data 2 "wp" [z; z] b = (b', Ok tt) /\
  ratio_rp run data z = 2 /\ forall x, b_rp b' x = b_rp b x * 4.
Proof.
  exists (toy_cosmo 2), (toy_cosmo 1), (1 / 4), {| b_bins := fun _ _ => 1; b_rp := fun x => INR x |}.
  destruct (correct_spec (toy_cosmo 2) (toy_cosmo 1) "wp" [1 / 4; 1 / 4] {| b_bins := fun _ _ => 1; b_rp := fun x => INR x |} (or_introl eq_refl)) as (b' & E & RP & _). exists b'.
  split; [apply toy_reg; lra|]. split; [apply toy_reg; lra|]. split; [exact E|].
  assert (R2 : ratio_rp (toy_cosmo 2) (toy_cosmo 1) (1 / 4) = 2) by (unfold ratio_rp, toy_cosmo; cbn; field). split; [exact R2|].
  intros x. rewrite RP. cbn [map]. rewrite R2. unfold prod. cbn [fold_right]. ring.
Qed.
Lemma toy_regular : regular (toy_cosmo 1) (1 / 4) /\ regular (toy_cosmo 2) (1 / 4) /\ ratio_rp (toy_cosmo 2) (toy_cosmo 1) (1 / 4) <> 1.
Proof. split; [apply toy_reg; lra|]. split; [apply toy_reg; lra|]. unfold ratio_rp, toy_cosmo; cbn. replace (2 * (1 / 4) / (1 * (1 / 4)) * (1 / 1)) with 2 by field. lra. Qed.
