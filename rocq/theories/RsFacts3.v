(** Proofs about the projection, the cosmology correction and the angle conversion, continued. *)
From Coq Require Import ZArith Lia.
From Verif Require Import Base Spec Quad Interp BaseFacts QuadFacts InterpFacts FftModel FftSpec FftFacts FftFacts5 RsModel RsSpec RsFacts RsFacts2.
Open Scope R_scope.

Lemma transform_scale lgr lgi ty n k_min k_max lo hi T n_in k_in pk pk' c pts pts' : 0 < k_min -> k_min < k_max -> make_transformer lgr lgi ty n k_min k_max lo hi = Ok T ->
  (2 <= n_in)%nat -> (forall i, (i < n_in)%nat -> 0 < k_in i) -> incr n_in k_in -> (forall i, (i < n_in)%nat -> pk' i = c * pk i) ->
  transform T n_in k_in pk = Ok pts -> transform T n_in k_in pk' = Ok pts' -> pts' = map (fun p => (fst p, c * snd p)) pts.
Proof.
  intros K1 K2 MK N P I PK TR TR'. destruct (make_spec lgr lgi _ _ _ _ _ _ _ K1 K2 MK) as (N2 & DP & TN & TQ & _ & _ & _ & KP & _ & _ & W & _).
  unfold transform in TR, TR'. rewrite TQ, TN in TR, TR'. destruct (Req_EM_T 0 0); [|contradiction].
  apply bind_inv in TR as (o & F & TR). apply bind_inv in TR' as (o' & F' & TR'). injection TR as <-. injection TR' as <-.
  destruct (fht_total lgr lgi n (t_mu T) (step n k_min k_max) 0 (t_kr T) (t_xsave T) (fun i => c * (t_k T i * log_interp n_in k_in pk (t_k T i)) + 0 * (t_k T i * log_interp n_in k_in pk (t_k T i))) (-1) ltac:(lia) W (or_intror eq_refl)) as (o2 & F2).
  assert (E : forall j, (j < n)%nat -> o' j = c * o j).
  { intros j Hj. rewrite (fht_ext lgr lgi n _ _ _ _ _ _ _ _ _ _ ltac:(lia) W (or_intror eq_refl)) with (2 := F') (3 := F2) by (try exact Hj; intros i Hi; rewrite (log_interp_ext n_in k_in pk' (fun i => c * pk i) _ N PK), log_interp_scale by assumption; ring).
    rewrite (fht_linear lgr lgi n _ _ _ _ _ _ _ c 0 (-1) o o o2 ltac:(lia) W (or_intror eq_refl) F F F2 j Hj). ring. }
  rewrite map_map. apply map_ext_in. intros j Hj. cbn [fst snd]. unfold kept in Hj. rewrite TN in Hj. apply filter_In in Hj as [Hj _]. apply in_seq in Hj. f_equal. rewrite E by lia. unfold Rdiv. ring.
Qed.

(** A spectrum that factorises in redshift and scale: the projection factorises. *)
Theorem project_separable lgr lgi ty n k_min k_max lo hi T J rho sections ns r : 0 < k_min -> k_min < k_max -> make_transformer lgr lgi ty n k_min k_max lo hi = Ok T ->
  project T J rho sections ns = Ok r -> forall i name s nsv f g p pts, section_name J i = Some name -> sections name = Some s -> ns = Some nsv -> n_bin nsv (S i) = Some f ->
  (i < List.length (snd r))%nat -> (2 <= s_nk s)%nat -> (forall l, (l < s_nk s)%nat -> 0 < s_k s l) -> incr (s_nk s) (s_k s) ->
  (forall j l, (j < s_nz s)%nat -> (l < s_nk s)%nat -> s_pk s j l = g j * p l) -> transform T (s_nk s) (s_k s) p = Ok pts ->
  nth i (snd r) [] = map (fun q => scale_of (j_type J) rho * simpson (s_nz s) (fun j => load_kernel nsv f (s_z s j) * g j) (s_z s) * snd q) pts.
Proof.
  intros K1 K2 MK PR i name s nsv f g p pts HN HS -> HF Hi NK PK IK SEP TR.
  destruct (project_value _ _ _ _ _ _ PR) as (nsv' & nb & E & BC & NB & RP & LO & _ & V). injection E as <-. rewrite LO in Hi.
  destruct (V i Hi) as (name' & s' & f' & rows & HN' & HS' & HF' & NZ & LR & ROW & LI & VAL). rewrite HN in HN'. injection HN' as <-. rewrite HS in HS'. injection HS' as <-. rewrite HF in HF'. injection HF' as <-.
  destruct (transform_shape _ _ _ _ _ TR) as [LP _]. rewrite RP, map_length in LI. rewrite RP, map_length in VAL.
  apply nth_ext with (d := 0) (d' := scale_of (j_type J) rho * simpson (s_nz s) (fun j => load_kernel nsv f (s_z s j) * g j) (s_z s) * snd (0, 0)); [rewrite map_length; lia|].
  intros x Hx. rewrite LI in Hx. rewrite VAL by exact Hx. rewrite (map_nth (fun q : R * R => scale_of (j_type J) rho * simpson (s_nz s) (fun j => load_kernel nsv f (s_z s j) * g j) (s_z s) * snd q)).
  rewrite Rmult_assoc. f_equal. rewrite Rmult_comm, <- simpson_scal. apply simpson_ext; [lia| |reflexivity]. intros j Hj.
  assert (RE : nth j rows [] = map (fun q => (fst q, g j * snd q)) pts).
  { apply (transform_scale lgr lgi ty n k_min k_max lo hi T (s_nk s) (s_k s) p (s_pk s j) (g j)); try assumption; [|now apply ROW]. intros l Hl. now apply SEP. }
  rewrite RE. change (0, 0) with ((fun q : R * R => (fst q, g j * snd q)) (0, 0)) at 1 || idtac.
  rewrite (nth_indep _ (0, 0) ((fun q : R * R => (fst q, g j * snd q)) (0, 0))) by (rewrite map_length; lia).
  rewrite (map_nth (fun q : R * R => (fst q, g j * snd q))). cbn [snd]. ring.
Qed.
(** No overlap between the redshifts of the spectrum and those of the kernel: zero. *)
Theorem project_no_overlap T J rho sections ns r : project T J rho sections ns = Ok r -> forall i name s nsv, section_name J i = Some name -> sections name = Some s -> ns = Some nsv ->
  (i < List.length (snd r))%nat -> (forall j, (j < s_nz s)%nat -> s_z s j < n_z nsv 0%nat \/ n_z nsv (n_size nsv - 1)%nat < s_z s j) ->
  forall x, In x (nth i (snd r) []) -> x = 0.
Proof.
  intros PR i name s nsv HN HS -> Hi OUT x IN.
  destruct (project_value _ _ _ _ _ _ PR) as (nsv' & nb & E & BC & NB & RP & LO & _ & V). injection E as <-. rewrite LO in Hi.
  destruct (V i Hi) as (name' & s' & f' & rows & HN' & HS' & HF' & NZ & LR & ROW & LI & VAL). rewrite HN in HN'. injection HN' as <-. rewrite HS in HS'. injection HS' as <-.
  destruct (In_nth _ _ 0 IN) as (m & Hm & <-). rewrite VAL by lia. rewrite (simpson_ext (s_nz s) _ (fun _ => 0) _ (s_z s) NZ); [rewrite simpson_zero; ring| |reflexivity].
  intros j Hj. unfold load_kernel. rewrite interp1d_outside by (now apply OUT). ring.
Qed.
(** A bin depends on its own section and its own kernel only. *)
Theorem project_own T J rho sections sections' ns ns' r r' : project T J rho sections (Some ns) = Ok r -> project T J rho sections' (Some ns') = Ok r' ->
  n_size ns = n_size ns' -> n_z ns = n_z ns' ->
  fst r = fst r' /\ forall i name, section_name J i = Some name -> sections name = sections' name -> n_bin ns (S i) = n_bin ns' (S i) -> nth i (snd r) [] = nth i (snd r') [].
Proof.
  intros PR PR' NS NZE. destruct (project_value _ _ _ _ _ _ PR) as (nsv & nb & E & BC & NB & RP & LO & _ & V). injection E as <-.
  destruct (project_value _ _ _ _ _ _ PR') as (nsv & nb' & E & BC' & NB' & RP' & LO' & _ & V'). injection E as <-. rewrite BC in BC'. injection BC' as <-.
  split; [congruence|]. intros i name HN HS HB. destruct (le_lt_dec nb i) as [L|Hi]; [rewrite !nth_overflow by lia; reflexivity|].
  destruct (V i Hi) as (n1 & s1 & f1 & rows1 & HN1 & HS1 & HF1 & NZ1 & LR1 & ROW1 & LI1 & VAL1). destruct (V' i Hi) as (n2 & s2 & f2 & rows2 & HN2 & HS2 & HF2 & NZ2 & LR2 & ROW2 & LI2 & VAL2).
  assert (n1 = name) as -> by congruence. assert (n2 = name) as -> by congruence. assert (s2 = s1) as -> by congruence. assert (f2 = f1) as -> by congruence.
  apply nth_ext with (d := 0) (d' := 0); [congruence|]. intros x Hx. rewrite VAL1, VAL2 by congruence. f_equal. apply simpson_ext; [exact NZ1| |reflexivity]. intros j Hj.
  assert (RW : nth j rows1 [] = nth j rows2 []) by (specialize (ROW1 j Hj); specialize (ROW2 j Hj); congruence). rewrite RW. f_equal. unfold load_kernel. now rewrite NS, NZE.
Qed.

(** ** Cosmology correction *)
Definition val {A} (d : A) (r : res A) : A := match r with Ok v => v | Err _ => d end.
Lemma correct_loop_spec run data ty z : ty = "wp"%string \/ ty = "ds"%string -> forall i b, exists b', correct_loop run data ty z i b = (b', Ok tt) /\
  (forall x, b_rp b' x = b_rp b x * prod (map (ratio_rp run data) z)) /\
  (forall j x, b_bins b' j x = if andb (Nat.leb i j) (Nat.ltb j (i + List.length z)) then b_bins b j x * val 1 (ratio_corr run data ty (nth (j - i) z 0)) else b_bins b j x).
Proof.
  intros TY. induction z as [|zi t IH]; intros i b; cbn [correct_loop].
  - exists b. split; [reflexivity|]. split; [intros x; cbn; ring|]. intros j x. cbn [List.length]. rewrite Nat.add_0_r. destruct (Nat.leb_spec i j), (Nat.ltb_spec j i); cbn; try reflexivity; lia.
  - assert (RC : exists rc, ratio_corr run data ty zi = Ok rc) by (destruct TY as [-> | ->]; eexists; reflexivity). destruct RC as [rc RC]. rewrite RC.
    match goal with |- context [correct_loop run data ty t (S i) ?b1] => destruct (IH (S i) b1) as (b' & E & RP & BI) end. exists b'. split; [exact E|]. split.
    + intros x. rewrite RP. cbn [b_rp map prod fold_right]. unfold prod. ring.
    + intros j x. rewrite BI. cbn [b_bins List.length]. destruct (Nat.eqb_spec j i) as [-> |NE].
      * rewrite Nat.sub_diag. cbn [nth]. rewrite RC. cbn [val]. destruct (Nat.leb_spec (S i) i); [lia|]. destruct (Nat.leb_spec i i); [|lia]. destruct (Nat.ltb_spec i (i + S (List.length t))); [|lia]. reflexivity.
      * destruct (Nat.leb_spec (S i) j), (Nat.leb_spec i j), (Nat.ltb_spec j (S i + List.length t)), (Nat.ltb_spec j (i + S (List.length t))); cbn [andb]; try lia; try reflexivity.
        replace (j - i)%nat with (S (j - S i)) by lia. reflexivity.
Qed.
Theorem correct_spec run data ty z b : ty = "wp"%string \/ ty = "ds"%string -> exists b', correct run data (List.length z) ty z b = (b', Ok tt) /\
  (forall x, b_rp b' x = b_rp b x * prod (map (ratio_rp run data) z)) /\
  (forall j x, (j < List.length z)%nat -> exists rc, ratio_corr run data ty (nth j z 0) = Ok rc /\ b_bins b' j x = b_bins b j x * rc) /\
  (forall j x, (List.length z <= j)%nat -> b_bins b' j x = b_bins b j x).
Proof.
  intros TY. unfold correct. rewrite Nat.eqb_refl. destruct (correct_loop_spec run data ty z TY 0 b) as (b' & E & RP & BI). exists b'. split; [exact E|]. split; [exact RP|]. split.
  - intros j x Hj. assert (RC : exists rc, ratio_corr run data ty (nth j z 0) = Ok rc) by (destruct TY as [-> | ->]; eexists; reflexivity). destruct RC as [rc RC]. exists rc. split; [exact RC|].
    rewrite BI. destruct (Nat.ltb_spec j (0 + List.length z)); [|lia]. cbn [Nat.leb andb]. rewrite Nat.sub_0_r, RC. reflexivity.
  - intros j x Hj. rewrite BI. destruct (Nat.ltb_spec j (0 + List.length z)); [lia|]. now destruct (Nat.leb 0 j).
Qed.
Lemma correct_bad_length run data nb ty z b : List.length z <> nb -> correct run data nb ty z b = (b, Err "ValueError").
Proof. intros H. unfold correct. destruct (Nat.eqb_spec (List.length z) nb); [contradiction|reflexivity]. Qed.
Lemma correct_bad_type run data nb ty z b : ty <> "wp"%string -> ty <> "ds"%string -> (1 <= nb)%nat -> correct run data nb ty z b = (b, Err "ValueError").
Proof.
  intros A B N. unfold correct. destruct (Nat.eqb_spec (List.length z) nb); [|reflexivity]. destruct z; [cbn in *; lia|]. cbn. unfold ratio_corr.
  destruct (String.eqb_spec ty "wp"); [contradiction|]. destruct (String.eqb_spec ty "ds"); [contradiction|]. reflexivity.
Qed.
Lemma ratio_self c z ty : regular c z -> ratio_rp c c z = 1 /\ (ty = "wp"%string \/ ty = "ds"%string -> ratio_corr c c ty z = Ok 1).
Proof.
  intros (A & B & C & D & E & F). split; [unfold ratio_rp; field; split; assumption|]. intros [-> | ->]; unfold ratio_corr; cbn; f_equal; field; repeat split; assumption.
Qed.
Lemma ratio_chain a b c z : regular a z -> regular b z -> regular c z -> ratio_rp c b z * ratio_rp b a z = ratio_rp c a z.
Proof. intros (A & B & C & D & E & F) (A' & B' & C' & D' & E' & F') _. unfold ratio_rp. field. repeat split; assumption. Qed.
Lemma corr_chain a b c ty z u v : regular a z -> regular b z -> regular c z -> ratio_corr c b ty z = Ok u -> ratio_corr b a ty z = Ok v -> ratio_corr c a ty z = Ok (v * u).
Proof.
  intros (A & B & C & D & E & F) (A' & B' & C' & D' & E' & F') (A2 & B2 & C2 & D2 & E2 & F2). unfold ratio_corr. destruct (String.eqb ty "wp"); [|destruct (String.eqb ty "ds"); [|discriminate]]; intros H H'; injection H as <-; injection H' as <-; f_equal; field; repeat split; assumption.
Qed.
Lemma prod_ones {A} (f : A -> R) l : (forall x, In x l -> f x = 1) -> prod (map f l) = 1.
Proof. intros H. induction l as [|x t IH]; [reflexivity|]. cbn. rewrite H by now left. rewrite Rmult_1_l. apply IH. intros y Hy. apply H. now right. Qed.
Lemma prod_mul {A} (f g h : A -> R) l : (forall x, In x l -> f x * g x = h x) -> prod (map f l) * prod (map g l) = prod (map h l).
Proof.
  intros H. induction l as [|x t IH]; [cbn; ring|]. cbn [map prod fold_right]. fold (prod (map f t)) (prod (map g t)) (prod (map h t)). rewrite <- H by now left. rewrite <- IH by (intros y Hy; apply H; now right). ring.
Qed.
Theorem correct_same c ty z b : ty = "wp"%string \/ ty = "ds"%string -> (forall zi, In zi z -> regular c zi) -> exists b', correct c c (List.length z) ty z b = (b', Ok tt) /\
  (forall x, b_rp b' x = b_rp b x) /\ forall j x, b_bins b' j x = b_bins b j x.
Proof.
  intros TY RG. destruct (correct_spec c c ty z b TY) as (b' & E & RP & BI & BO). exists b'. split; [exact E|]. split.
  - intros x. rewrite RP, prod_ones; [ring|]. intros zi Hz. now apply (ratio_self c zi ty), RG.
  - intros j x. destruct (le_lt_dec (List.length z) j) as [L|L]; [now apply BO|]. destruct (BI j x L) as (rc & R1 & R2).
    destruct (ratio_self c (nth j z 0) ty (RG _ (nth_In _ _ L))) as [_ R3]. rewrite (R3 TY) in R1. injection R1 as <-. rewrite R2. ring.
Qed.
Theorem correct_chain a b c ty z B : ty = "wp"%string \/ ty = "ds"%string -> (forall zi, In zi z -> regular a zi /\ regular b zi /\ regular c zi) ->
  exists B1 B2 B3, correct b a (List.length z) ty z B = (B1, Ok tt) /\ correct c b (List.length z) ty z B1 = (B2, Ok tt) /\ correct c a (List.length z) ty z B = (B3, Ok tt) /\
    (forall x, b_rp B2 x = b_rp B3 x) /\ forall j x, b_bins B2 j x = b_bins B3 j x.
Proof.
  intros TY RG. destruct (correct_spec b a ty z B TY) as (B1 & E1 & RP1 & BI1 & BO1). destruct (correct_spec c b ty z B1 TY) as (B2 & E2 & RP2 & BI2 & BO2). destruct (correct_spec c a ty z B TY) as (B3 & E3 & RP3 & BI3 & BO3).
  exists B1, B2, B3. do 3 (split; [assumption|]). split.
  - intros x. rewrite RP2, RP1, RP3, Rmult_assoc. f_equal. rewrite Rmult_comm. apply prod_mul. intros zi Hz. destruct (RG zi Hz) as (X & Y & Z). now apply ratio_chain.
  - intros j x. destruct (le_lt_dec (List.length z) j) as [L|L]; [now rewrite BO2, BO1, BO3|]. destruct (BI1 j x L) as (u & U1 & U2). destruct (BI2 j x L) as (v & V1 & V2). destruct (BI3 j x L) as (w & W1 & W2).
    destruct (RG _ (nth_In z 0 L)) as (X & Y & Z). rewrite (corr_chain a b c ty _ v u X Y Z V1 U1) in W1. injection W1 as <-. rewrite V2, U2, W2. ring.
Qed.

Lemma rp_values run data z : (forall zi, In zi z -> regular run zi /\ regular data zi) ->
  prod (map (ratio_rp run data) z) * prod (map (dist_h data) z) = prod (map (dist_h run) z).
Proof.
  intros RG. apply prod_mul. intros zi Hz. destruct (RG zi Hz) as ((A & B & C & D & E & F) & (A' & B' & C' & D' & E' & F')). unfold ratio_rp, dist_h. field. split; assumption.
Qed.
Theorem correct_values run data z b : (forall zi, In zi z -> regular run zi /\ regular data zi) ->
  (exists b', correct run data (List.length z) "wp" z b = (b', Ok tt) /\
     (forall x, b_rp b' x * prod (map (dist_h data) z) = b_rp b x * prod (map (dist_h run) z)) /\
     forall j x, (j < List.length z)%nat -> b_bins b' j x * hubble run (nth j z 0) = b_bins b j x * hubble data (nth j z 0)) /\
  (exists b', correct run data (List.length z) "ds" z b = (b', Ok tt) /\
     (forall x, b_rp b' x * prod (map (dist_h data) z) = b_rp b x * prod (map (dist_h run) z)) /\
     forall j x, (j < List.length z)%nat ->
       b_bins b' j x * (c_h data * sigma_crit run (nth j z 0)) = b_bins b j x * (c_h run * sigma_crit data (nth j z 0))).
Proof.
  intros RG. split.
  - destruct (correct_spec run data "wp" z b (or_introl eq_refl)) as (b' & E & RP & BI & _). exists b'. split; [exact E|]. split.
    + intros x. rewrite RP, Rmult_assoc. f_equal. now apply rp_values.
    + intros j x L. destruct (BI j x L) as (rc & R1 & R2). destruct (RG _ (nth_In z 0 L)) as ((A & B & C & D & F & G) & (A' & B' & C' & D' & F' & G')).
      cbn in R1. injection R1 as <-. rewrite R2. unfold hubble. field. split; assumption.
  - destruct (correct_spec run data "ds" z b (or_intror eq_refl)) as (b' & E & RP & BI & _). exists b'. split; [exact E|]. split.
    + intros x. rewrite RP, Rmult_assoc. f_equal. now apply rp_values.
    + intros j x L. destruct (BI j x L) as (rc & R1 & R2). destruct (RG _ (nth_In z 0 L)) as ((A & B & C & D & F & G) & (A' & B' & C' & D' & F' & G')).
      cbn in R1. injection R1 as <-. rewrite R2. unfold sigma_crit. field. repeat split; assumption.
Qed.

(** ** Angle conversion *)
Lemma setup_spec u : (supported u /\ theta_setup u = Ok u) \/ (~ supported u /\ theta_setup u = Err "ValueError").
Proof.
  unfold supported, theta_setup. destruct (existsb (String.eqb u) _) eqn:E.
  - left. split; [|reflexivity]. apply existsb_exists in E as (v & Hv & EQ). apply String.eqb_eq in EQ. now subst v.
  - right. split; [|reflexivity]. intros H. assert (existsb (String.eqb u) ["rad"; "deg"; "arcmin"; "arcsec"]%string = true) by (apply existsb_exists; exists u; split; [exact H|apply String.eqb_refl]). congruence.
Qed.
Lemma unit_pos other u : supported u -> exists s, unit_size other u = Some s /\ 0 < s.
Proof. pose proof PI_RGT_0. intros [<-|[<-|[<-|[<-|[]]]]]; cbn; eexists; (split; [reflexivity|lra]). Qed.
Lemma canon_supported u : supported u -> canon u = u.
Proof. intros [<-|[<-|[<-|[<-|[]]]]]; reflexivity. Qed.
(** The angle itself, in radians, is what a conversion preserves. *)
Lemma theta_value other out vals u : supported out -> (exists s, unit_size other (canon u) = Some s /\ 0 < s) ->
  exists vals' s s', theta_execute other out (vals, u) = Ok (vals', out) /\ unit_size other (canon u) = Some s /\ unit_size other out = Some s' /\ 0 < s' /\ forall i, vals' i * s' = vals i * s.
Proof.
  intros SO (s & US & SP). destruct (unit_pos other out SO) as (s' & US' & SP'). unfold theta_execute. cbn [fst snd]. fold (canon u). rewrite US, US'. eexists _, s, s'. split; [reflexivity|]. do 3 (split; [assumption || reflexivity|]).
  intros i. field. lra.
Qed.
Theorem theta_round other vals u v vals' vals'' : supported u -> supported v -> theta_execute other v (vals, u) = Ok (vals', v) -> theta_execute other u (vals', v) = Ok (vals'', u) -> forall i, vals'' i = vals i.
Proof.
  intros SU SV E1 E2 i. destruct (unit_pos other u SU) as (s & US & SP). destruct (unit_pos other v SV) as (s' & US' & SP').
  unfold theta_execute in E1, E2. cbn [fst snd] in E1, E2. fold (canon u) in E1. fold (canon v) in E2. rewrite canon_supported, US, US' in E1 by assumption. rewrite canon_supported, US, US' in E2 by assumption. injection E1 as <-. injection E2 as <-. field. lra.
Qed.
Theorem theta_chain other vals u v w vals1 vals2 vals3 : supported v -> supported w -> theta_execute other v (vals, u) = Ok (vals1, v) -> theta_execute other w (vals1, v) = Ok (vals2, w) -> theta_execute other w (vals, u) = Ok (vals3, w) ->
  forall i, vals2 i = vals3 i.
Proof.
  intros SV SW E1 E2 E3 i. destruct (unit_pos other w SW) as (s & US & SP). destruct (unit_pos other v SV) as (s' & US' & SP').
  unfold theta_execute in E1, E2, E3. cbn [fst snd] in E1, E2, E3. fold (canon u) in E1, E3. fold (canon v) in E2. rewrite (canon_supported v) in E2 by assumption. rewrite US, US' in *.
  destruct (unit_size other (canon u)); [|discriminate]. injection E1 as <-. injection E2 as <-. injection E3 as <-. field. lra.
Qed.
