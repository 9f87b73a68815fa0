(** Lemmas about LrModel. *)
From Coq Require Import ZArith Lia Lra.
From Coquelicot Require Import Complex.
From Verif Require Import Base Quad Interp FftModel PipeModel PipeFacts OptModel ChainModel PredModel MiniModel IaModel IaFacts UellModel AupModel AupSpec AupFacts LiaModel LiaSpec LhModel LhSpec LhSpec2 LhFacts LrModel LrSpec.
Open Scope R_scope.

(** ** The angular part *)
Lemma lr_f_same G l b v : lr_f (PI / 2) l b = Ok v -> f_ell G (PI / 2) l b = Ok v.
Proof. unfold lr_f, f_ell. destruct (Req_EM_T (PI / 2) (PI / 2)); [|congruence]. destruct (Req_EM_T b 0); [auto|]. destruct (Req_EM_T b (-2)); [auto|discriminate]. Qed.
Lemma lr_f_runs l b : (l < 12)%nat -> ((exists v, lr_f (PI / 2) l b = Ok v) <-> b = 0 \/ b = -2).
Proof.
  intros L. unfold lr_f. destruct (Req_EM_T (PI / 2) (PI / 2)); [|congruence]. destruct (Req_EM_T b 0) as [E|E].
  { split; [now left|]. intros _. do 12 (destruct l as [|l]; [eexists; reflexivity|]). lia. }
  destruct (Req_EM_T b (-2)) as [E'|E'].
  { split; [now right|]. intros _. do 12 (destruct l as [|l]; [eexists; reflexivity|]). lia. }
  split; [intros (v & H); discriminate|]. tauto.
Qed.
Lemma lr_f_other l b : b <> 0 -> b <> -2 -> lr_f (PI / 2) l b = Err "TypeError".
Proof. intros N M. unfold lr_f. destruct (Req_EM_T (PI / 2) (PI / 2)); [|congruence]. destruct (Req_EM_T b 0); [contradiction|]. now destruct (Req_EM_T b (-2)). Qed.
Lemma ang_runs b l : (forall x, In x l -> (x < 12)%nat) -> b = 0 \/ b = -2 -> exists a, lr_angular (PI / 2) 0 b l = Ok a.
Proof.
  intros H B. induction l as [|x l IH]; [now exists []|]. cbn [lr_angular]. unfold lr_f_ell.
  destruct (proj2 (lr_f_runs x b (H x (or_introl eq_refl))) B) as (v & ->). cbn [bind].
  destruct IH as (a & ->); [intros y Y; apply H; now right|]. cbn [bind]. eexists. reflexivity.
Qed.
Lemma ang_sum G b nu u l a : lr_angular (PI / 2) 0 b l = Ok a -> (forall x, In x l -> (x / 2 < nu)%nat) -> sum_ell G (PI / 2) 0 b nu u l = Ok (lr_sum u a).
Proof.
  revert a. induction l as [|x l IH]; intros a H N; cbn [lr_angular] in H.
  - injection H as <-. reflexivity.
  - unfold lr_f_ell in H. destruct (lr_f (PI / 2) x b) as [v|e] eqn:E; cbn [bind] in H; [|discriminate].
    destruct (lr_angular (PI / 2) 0 b l) as [r|e] eqn:F; cbn [bind] in H; [|discriminate]. injection H as <-.
    cbn [sum_ell]. unfold calculate_f_ell. rewrite (lr_f_same G _ _ _ E). cbn [bind].
    destruct (Nat.ltb_spec (x / 2) nu) as [L|L]; [|specialize (N x (or_introl eq_refl)); lia]. cbn [bind].
    rewrite (IH r eq_refl) by (intros y Y; apply N; now right). cbn [bind lr_sum]. reflexivity.
Qed.
Lemma ell_small L x : In x (ell_values L) -> (L <= 11)%Z -> (x < 12)%nat.
Proof. intros I H. apply ell_in in I. lia. Qed.
Lemma ell_half L x : In x (ell_values L) -> (x / 2 < List.length (ell_values L))%nat.
Proof. intros I. rewrite ell_length. unfold ell_values in I. apply in_map_iff in I. destruct I as (i & <- & I). apply in_seq in I. rewrite Nat.mul_comm, Nat.div_mul by lia. lia. Qed.
Lemma wkm_class G b L u a : lr_angular (PI / 2) 0 b (ell_values L) = Ok a -> wkm_f_ell G b L (List.length (ell_values L)) u = Ok (lr_wkm u a).
Proof. intros A. unfold wkm_f_ell, wkm_at. rewrite (ang_sum _ _ _ _ _ _ A (ell_half L)). cbn [bind]. reflexivity. Qed.

(** ** The sampled halo properties *)
Definition picked {A} (d : A) (idx : list nat) (l : list A) : list A := map (fun i => nth i l d) idx.
Definition picked_halos (idx : list nat) (h : halos) : halos :=
  {| ha_mass := picked 0 idx (ha_mass h); ha_c := map (picked 0 idx) (ha_c h); ha_rs := map (picked 0 idx) (ha_rs h); ha_rvir := picked 0 idx (ha_rvir h) |}.
Definition index_of (size nmass : nat) : list nat := if Nat.eqb size nmass then seq 0 size else kept size (size / nmass) (appended size (size / nmass)).
Lemma pick_all {A} (d : A) l n : List.length l = n -> picked d (seq 0 n) l = l.
Proof. intros <-. symmetry. apply map_nth_seq. Qed.
Lemma pick_slice {A} (d : A) l f : slice_step f l = picked d (slice_step f (seq 0 (List.length l))) l.
Proof. rewrite (map_nth_seq d l) at 1. unfold slice_step. apply slice_map. Qed.
Lemma last_pick {A} (d : A) l y : last_of l = Ok y -> nth (List.length l - 1) l d = y.
Proof.
  unfold last_of. destruct (rev l) as [|x r] eqn:E; [discriminate|]. intros H. injection H as <-. apply last_rev in E. rewrite E, app_length. cbn.
  replace (List.length (rev r) + 1 - 1)%nat with (List.length (rev r)) by lia. rewrite app_nth2, Nat.sub_diag by lia. reflexivity.
Qed.
Lemma last_runs {A} (l : list A) : (1 <= List.length l)%nat -> exists y, last_of l = Ok y.
Proof. intros H. unfold last_of. destruct (rev l) as [|x r] eqn:E; [|now exists x]. apply (f_equal (@List.length _)) in E. rewrite rev_length in E. cbn in E. lia. Qed.
Lemma columns_run t n : (1 <= n)%nat -> (forall r, In r t -> List.length r = n) -> exists l, last_column t = Ok l /\ l = map (fun r => nth (n - 1) r 0) t.
Proof.
  intros N. induction t as [|r t IH]; intros H; [now exists []|]. cbn [last_column map]. destruct (last_runs r) as (y & Y); [rewrite H by (now left); lia|]. rewrite Y. cbn [bind].
  destruct IH as (l & -> & ->); [intros q Q; apply H; now right|]. cbn [bind]. eexists. split; [reflexivity|]. f_equal. rewrite <- (H r) by (now left). symmetry. now apply last_pick.
Qed.
Lemma add_pick t n f : (1 <= n)%nat -> (forall r, In r t -> List.length r = n) ->
  add_column (map (slice_step f) t) (map (fun r => nth (n - 1) r 0) t) = map (picked 0 (kept n f true)) t.
Proof.
  intros N H. unfold add_column. induction t as [|r t IH]; [reflexivity|]. cbn [map combine fst snd]. f_equal.
  - unfold kept, picked at 1. rewrite map_app. cbn [map]. f_equal. rewrite <- (H r) at 1 by (now left). apply pick_slice.
  - apply IH. intros q Q. apply H. now right.
Qed.
Lemma down_kept h nmass : let n := List.length (ha_mass h) in (1 <= nmass <= n)%nat -> NoDup (ha_mass h) -> List.length (ha_rvir h) = n ->
  (forall r, In r (ha_c h) -> List.length r = n) -> (forall r, In r (ha_rs h) -> List.length r = n) ->
  lr_downsample (Z.of_nat nmass) h = Ok (picked_halos (index_of n nmass) h).
Proof.
  intros n N D V C S. unfold lr_downsample. fold n. unfold index_of. destruct (Nat.eqb_spec n nmass) as [E|E].
  { rewrite E, Z.eqb_refl. f_equal. unfold picked_halos. rewrite <- E. rewrite !pick_all by (auto; reflexivity).
    assert (K : forall t, (forall r : list R, In r t -> List.length r = n) -> map (picked 0 (seq 0 n)) t = t).
    { intros t H. induction t as [|r t IH]; [reflexivity|]. cbn. f_equal; [apply pick_all, H; now left|apply IH; intros q Q; apply H; now right]. }
    rewrite !K by assumption. now destruct h. }
  destruct (Z.eqb_spec (Z.of_nat n) (Z.of_nat nmass)); [lia|]. destruct (Z.eqb_spec (Z.of_nat nmass) 0); [lia|].
  rewrite <- Nat2Z.inj_div. set (f := (n / nmass)%nat). assert (F : (1 <= f)%nat) by (apply Nat.div_le_lower_bound; lia).
  destruct (Z.eqb_spec (Z.of_nat f) 0); [lia|]. unfold stride. destruct (Z.ltb_spec 0 (Z.of_nat f)); [|lia]. rewrite Nat2Z.id. cbn [ha_mass ha_c ha_rs ha_rvir].
  (* the masses *)
  pose proof (kept_same neqR 0 n nmass (ha_mass h) ltac:(lia) eq_refl) as K. fold f in K.
  destruct (down_shape neqR n nmass (ha_mass h) ltac:(lia) eq_refl) as (x & y & d0 & Q & (e & S') & DD). fold f in S', DD.
  assert (LM : nth (n - 1) (ha_mass h) 0 = y).
  { apply last_pick. unfold last_of. rewrite Q, rev_app_distr. reflexivity. }
  assert (K' := K). clear K. rewrite DD in K'.
  assert (KK : Ok (slice_step f (ha_mass h) ++ (if neqR x y then [y] else []))%list = Ok (map (fun i => nth i (ha_mass h) 0) (kept n f (appended n f)))).
  { apply K'.
    - intros i Hi. unfold neqR. destruct (Req_EM_T _ _) as [Z|Z]; [|reflexivity]. exfalso. apply (NoDup_nth (ha_mass h) 0) in Z; fold n; try lia. exact D.
    - unfold neqR. now destruct (Req_EM_T _ _). }
  injection KK as KK.
  assert (AP : neqR x y = appended n f).
  { apply (f_equal (@List.length _)) in KK. rewrite map_length in KK. unfold kept in KK. rewrite !app_length in KK.
    rewrite (pick_slice 0 (ha_mass h) f) in KK. unfold picked in KK. rewrite map_length in KK. fold n in KK. destruct (neqR x y), (appended n f); cbn in KK; try reflexivity; lia. }
  assert (X : last_of (slice_step f (ha_mass h)) = Ok x) by (unfold last_of; rewrite S', rev_app_distr; reflexivity).
  assert (Y : last_of (ha_mass h) = Ok y) by (unfold last_of; rewrite Q, rev_app_distr; reflexivity).
  rewrite X, Y. cbn [bind]. rewrite AP.
  assert (P : forall r : list R, List.length r = n -> (slice_step f r ++ (if appended n f then [nth (n - 1) r 0] else []))%list = picked 0 (kept n f (appended n f)) r).
  { intros r R. unfold kept, picked. rewrite map_app. f_equal; [rewrite <- R; apply pick_slice|]. now destruct (appended n f). }
  destruct (appended n f) eqn:EA.
  - destruct (columns_run (ha_c h) n) as (lc & -> & ->); [lia|assumption|]. cbn [bind]. destruct (columns_run (ha_rs h) n) as (ls & -> & ->); [lia|assumption|]. cbn [bind].
    destruct (last_runs (ha_rvir h)) as (v & LV); [rewrite V; lia|]. rewrite LV. cbn [bind]. f_equal. unfold picked_halos. f_equal.
    + rewrite <- LM. now apply P.
    + apply add_pick; [lia|assumption].
    + apply add_pick; [lia|assumption].
    + rewrite <- (P (ha_rvir h) V). f_equal. f_equal. symmetry. rewrite <- V. now apply last_pick.
  - f_equal. unfold picked_halos.
    assert (P0 : forall r : list R, List.length r = n -> slice_step f r = picked 0 (kept n f false) r) by (intros r R; rewrite <- (P r R); now rewrite app_nil_r).
    f_equal; try (now apply P0); apply map_ext_in; intros r I; apply P0; auto.
Qed.
