(** The Gaussian likelihood of the cut vectors, and mock data vectors. *)
From Verif Require Import Base QuadFacts OptModel TpModel TpSpec TpFacts TpFacts2 TpFacts3 TpFacts4 TpFacts5.
From Coq Require Import ZArith List Sorting.Sorted.
Import ListNotations.

Definition kron (i j : nat) : R := if Nat.eqb i j then 1 else 0.
Lemma sum_kron : forall n k f, (k < n)%nat -> sumR n (fun i => kron k i * f i) = f k.
Proof.
  induction n as [| n IH]; intros k f H; [lia |]. cbn. unfold kron at 2.
  destruct (Nat.eqb_spec k n) as [-> | N].
  - replace (sumR n (fun i => kron n i * f i)) with 0; [lra |]. symmetry. rewrite <- (sumR_zero n).
    apply sumR_ext. intros i Hi. unfold kron. destruct (Nat.eqb_spec n i); [lia | lra].
  - rewrite IH by lia. lra.
Qed.

(** ** Principal submatrices of a positive definite matrix *)
Definition scatter (K : list nat) (x : nat -> R) (a : nat) : R :=
  sumR (length K) (fun i => kron (nth i K 0%nat) a * x i).
Lemma scatter_sum : forall K x n F, Forall (fun k => k < n)%nat K ->
  sumR n (fun a => scatter K x a * F a) = sumR (length K) (fun i => x i * F (nth i K 0%nat)).
Proof.
  intros K x n F H. unfold scatter.
  transitivity (sumR n (fun a => sumR (length K) (fun i => x i * (kron (nth i K 0%nat) a * F a)))).
  - apply sumR_ext. intros a _. rewrite Rmult_comm, <- sumR_scal. apply sumR_ext. intros i _. ring.
  - rewrite sumR_swap. apply sumR_ext. intros i Hi. rewrite sumR_scal, sum_kron; [reflexivity |].
    apply (proj1 (Forall_forall _ _) H). now apply nth_In.
Qed.
Lemma sorted_nodup : forall K, StronglySorted lt K -> NoDup K.
Proof.
  induction 1 as [| x K _ IH F]; constructor; [| exact IH]. intro H. apply (proj1 (Forall_forall _ _) F) in H. lia.
Qed.
Lemma scatter_at : forall K x i, StronglySorted lt K -> (i < length K)%nat -> scatter K x (nth i K 0%nat) = x i.
Proof.
  intros K x i S Hi. unfold scatter. transitivity (sumR (length K) (fun j => kron i j * x j)); [| now apply sum_kron].
  apply sumR_ext. intros j Hj. f_equal. unfold kron.
  destruct (Nat.eqb_spec i j) as [-> | N]; [now rewrite Nat.eqb_refl |].
  destruct (Nat.eqb_spec (nth j K 0%nat) (nth i K 0%nat)) as [E | E]; [| reflexivity].
  exfalso. apply N. symmetry. exact (proj1 (NoDup_nth K 0%nat) (sorted_nodup K S) j i Hj Hi E).
Qed.
Lemma pos_def_cut : forall K f f' m m', cut_by K f f' -> wf_file f -> f_cov f = Some m -> f_cov f' = Some m' ->
  pos_def m -> pos_def m'.
Proof.
  intros K f f' m m' C W Em Em' P. pose proof (cut_cov _ _ _ C) as Q. rewrite Em, Em' in Q. destruct Q as (Hn & Ha).
  pose proof (cut_points _ _ _ C) as Hp. apply picks_range in Hp. rewrite <- (proj1 (wf_cov f W m Em)) in Hp.
  intros x (i0 & Hi0 & Hx). rewrite Hn in *.
  specialize (P (scatter K x)).
  replace (sumR (length K) (fun i => sumR (length K) (fun j => x i * m_at m' i j * x j)))
    with (sumR (m_n m) (fun a => sumR (m_n m) (fun b => scatter K x a * m_at m a b * scatter K x b))).
  - apply P. exists (nth i0 K 0%nat). split; [apply (proj1 (Forall_forall _ _) Hp); now apply nth_In |].
    rewrite scatter_at; [exact Hx | exact (cut_sorted _ _ _ C) | exact Hi0].
  - transitivity (sumR (m_n m) (fun a => scatter K x a * sumR (m_n m) (fun b => scatter K x b * m_at m a b))).
    { apply sumR_ext. intros a _. rewrite <- sumR_scal. apply sumR_ext. intros b _. ring. }
    rewrite scatter_sum by exact Hp. apply sumR_ext. intros i Hi.
    rewrite scatter_sum by exact Hp. rewrite <- sumR_scal. apply sumR_ext. intros j Hj.
    rewrite (Ha i j (nth i K 0%nat) (nth j K 0%nat)) by now apply nth_error_nth'. ring.
Qed.

(** ** chi2 *)
Lemma chi2_eq : forall d t i, length d = length t -> length d = m_n i ->
  chi2 d t i = Ok (sumR (length d) (fun a => sumR (length d) (fun b =>
    (nth a d 0 - nth a t 0) * m_at i a b * (nth b d 0 - nth b t 0)))).
Proof.
  intros d t i L N. unfold chi2, bcast2. rewrite L, Nat.eqb_refl. cbn [bind].
  set (r := map (fun p => fst p - snd p) (combine d t)).
  assert (Lr : length r = length d) by (unfold r; rewrite map_length, combine_length; lia).
  change (map (fun p => fst p - snd p) (combine d t)) with r. rewrite Lr, N, Nat.eqb_refl. unfold quad_form. rewrite Lr.
  assert (Er : forall a, (a < length d)%nat -> nth a r 0 = nth a d 0 - nth a t 0).
  { intros a Ha. unfold r. rewrite (nth_indep _ 0 ((fun p => fst p - snd p) (0, 0))) by (rewrite map_length, combine_length; lia).
    rewrite (map_nth (fun p => fst p - snd p)), combine_nth by exact L. reflexivity. }
  f_equal. rewrite <- L. apply sumR_ext. intros a Ha. apply sumR_ext. intros b Hb. now rewrite (Er a Ha), (Er b Hb).
Qed.

Lemma chi2_pos : forall cov i d t, inverse_of cov i -> pos_def cov -> length d = length t -> length d = m_n cov ->
  exists x, chi2 d t i = Ok x /\ 0 <= x /\ (x = 0 <-> d = t).
Proof.
  intros cov i d t (Ni & HI) P L N. rewrite chi2_eq by congruence. eexists. split; [reflexivity |].
  set (n := length d) in *. rewrite <- N in *.
  set (r := fun a => nth a d 0 - nth a t 0).
  set (y := fun k => sumR n (fun b => m_at i k b * r b)).
  assert (CY : forall a, (a < n)%nat -> sumR n (fun k => m_at cov a k * y k) = r a).
  { intros a Ha. unfold y.
    transitivity (sumR n (fun k => sumR n (fun b => r b * (m_at cov a k * m_at i k b)))).
    - apply sumR_ext. intros k _. rewrite <- sumR_scal. apply sumR_ext. intros b _. ring.
    - rewrite sumR_swap. transitivity (sumR n (fun b => kron a b * r b)); [| now apply sum_kron].
      apply sumR_ext. intros b Hb. rewrite sumR_scal, HI by assumption. unfold kron. ring. }
  assert (E : sumR n (fun a => sumR n (fun b => r a * m_at i a b * r b))
            = sumR n (fun a => sumR n (fun k => y a * m_at cov a k * y k))).
  { transitivity (sumR n (fun a => y a * r a)).
    - apply sumR_ext. intros a _. unfold y. rewrite Rmult_comm, <- sumR_scal. apply sumR_ext. intros b _. ring.
    - apply sumR_ext. intros a Ha. rewrite <- (CY a Ha), <- sumR_scal. apply sumR_ext. intros k _. ring. }
  fold n in E. change (sumR n (fun a => sumR n (fun b => (nth a d 0 - nth a t 0) * m_at i a b * (nth b d 0 - nth b t 0))))
    with (sumR n (fun a => sumR n (fun b => r a * m_at i a b * r b))). rewrite E.
  assert (Z : (forall a, (a < n)%nat -> y a = 0) -> forall a, (a < n)%nat -> r a = 0).
  { intros H a Ha. rewrite <- (CY a Ha). rewrite <- (sumR_zero n). apply sumR_ext. intros k Hk. rewrite (H k Hk). ring. }
  assert (ZZ : (forall a, (a < n)%nat -> r a = 0) -> d = t).
  { intro H. apply (nth_ext d t 0 0 L). intros a Ha. specialize (H a Ha). unfold r in H. lra. }
  assert (D : (forall a, (a < n)%nat -> y a = 0) \/ exists a, (a < n)%nat /\ y a <> 0).
  { generalize y. clear. intro y. generalize n. clear. intro n. induction n as [| n IH]; [left; intros a Ha; lia |].
    destruct IH as [IH | (a & Ha & Hy)]; [| right; exists a; split; [lia | exact Hy]].
    destruct (Req_dec (y n) 0) as [Z | Z]; [| right; exists n; split; [lia | exact Z]].
    left. intros a Ha. destruct (Nat.eq_dec a n) as [-> | Na]; [exact Z |]. apply IH. lia. }
  destruct D as [D | D].
  - assert (Q : sumR n (fun a => sumR n (fun k => y a * m_at cov a k * y k)) = 0).
    { rewrite <- (sumR_zero n). apply sumR_ext. intros a Ha. rewrite <- (sumR_zero n). apply sumR_ext. intros k _. rewrite (D a Ha). ring. }
    rewrite Q. split; [lra |]. split; [| reflexivity]. intros _. apply ZZ. now apply Z.
  - specialize (P y). rewrite <- N in P. specialize (P D). split; [lra |]. split; [lra |].
    intro Edt. exfalso. destruct D as (a & Ha & Hy). apply Hy. unfold y. rewrite <- (sumR_zero n). apply sumR_ext.
    intros b _. unfold r. rewrite Edt. ring.
Qed.

Lemma chi2_broadcast : forall d t i x, length d <> 1%nat -> chi2 d [t] i = Ok x ->
  x = sumR (length d) (fun a => sumR (length d) (fun b => (nth a d 0 - t) * m_at i a b * (nth b d 0 - t))).
Proof.
  intros d t i x N H. unfold chi2, bcast2 in H. cbn [length] in H.
  destruct (Nat.eqb_spec (length d) 1); [contradiction |].
  set (r := map (fun u => u - t) d) in *.
  assert (E : (match d with [u] => Ok (map (Rminus u) [t]) | _ => Ok r end) = Ok r).
  { destruct d as [| u [| v d]]; reflexivity. }
  assert (H' : bind (Ok r) (fun r => if Nat.eqb (length r) (m_n i) then Ok (quad_form (m_at i) r) else Err "ValueError"%string) = Ok x).
  { rewrite <- E. destruct d as [| u [| v d]]; exact H. }
  cbn [bind] in H'. destruct (Nat.eqb (length r) (m_n i)); [| discriminate H']. injection H' as <-.
  unfold quad_form. assert (Lr : length r = length d) by apply map_length. rewrite Lr.
  assert (Er : forall a, (a < length d)%nat -> nth a r 0 = nth a d 0 - t).
  { intros a Ha. unfold r. rewrite (nth_indep _ 0 ((fun u => u - t) 0)) by (rewrite map_length; exact Ha).
    now rewrite (map_nth (fun u => u - t)). }
  apply sumR_ext. intros a Ha. apply sumR_ext. intros b Hb. now rewrite (Er a Ha), (Er b Hb).
Qed.

(** ** Mock data vectors *)
Lemma slice_mid : forall (a b c : list R), slice (length a) (length a + length b) (a ++ b ++ c) = b.
Proof.
  intros a b c. unfold slice. rewrite skipn_app, skipn_all, Nat.sub_diag. cbn.
  replace (length a + length b - length a)%nat with (length b) by lia.
  rewrite firstn_app, firstn_all, Nat.sub_diag. cbn. apply app_nil_r.
Qed.
Lemma slice_length : forall a b l, (b <= length l)%nat -> length (slice a b l) = (b - a)%nat.
Proof. intros a b l H. unfold slice. rewrite firstn_length, skipn_length. lia. Qed.
Lemma skip_skip : forall {A} a b (l : list A), skipn a (skipn b l) = skipn (b + a) l.
Proof.
  intros A a b. induction b as [| b IH]; intro l; cbn; [reflexivity |]. destruct l; [apply skipn_nil | apply IH].
Qed.
Lemma slice_slice : forall a b c l, (a <= b)%nat -> (b <= c)%nat -> slice a b l ++ slice b c l = slice a c l.
Proof.
  intros a b c l H1 H2. unfold slice. replace (c - a)%nat with ((b - a) + (c - b))%nat by lia.
  replace (skipn b l) with (skipn (b - a) (skipn a l)).
  - generalize (skipn a l). intro l'. revert l'. generalize (c - b)%nat. induction (b - a)%nat as [| n IH]; intros k l'; cbn; [reflexivity |].
    destruct l' as [| x l']; cbn; [now rewrite firstn_nil |]. now rewrite IH.
  - rewrite skip_skip. f_equal. lia.
Qed.
Lemma put_values_spec : forall data sp at_, Forall wf_sp sp ->
  (at_ + sum_nat (map (fun s => length (sp_val s)) sp) <= length data)%nat ->
  Forall wf_sp (put_values data at_ sp) /\ flat_map sp_points (put_values data at_ sp) = flat_map sp_points sp /\
  flat_map sp_val (put_values data at_ sp) = slice at_ (at_ + sum_nat (map (fun s => length (sp_val s)) sp)) data.
Proof.
  induction sp as [| s sp IH]; intros at_ W L; cbn.
  - split; [constructor |]. split; [reflexivity |]. unfold slice. now rewrite Nat.add_0_r, Nat.sub_diag.
  - inversion W as [| ? ? Ws Wt]; subst. unfold sum_nat in L. cbn in L. fold (sum_nat (map (fun s => length (sp_val s)) sp)) in L.
    destruct (IH (at_ + length (sp_val s))%nat Wt) as (I1 & I2 & I3); [lia |]. rewrite I2, I3. split; [| split].
    + constructor; [| exact I1]. destruct Ws as [H1 H2 H3 H4 H5 H6].
      assert (LS : length (slice at_ (at_ + length (sp_val s)) data) = length (sp_val s)) by (rewrite slice_length; lia).
      constructor; cbn; rewrite ?LS; auto.
    + reflexivity.
    + rewrite slice_slice by lia. f_equal. unfold sum_nat. cbn. lia.
Qed.
Lemma slice_all : forall l, slice 0 (length l) l = l.
Proof. intro l. unfold slice. now rewrite Nat.sub_0_r, skipn_O, firstn_all. Qed.

Lemma replace_ok : forall f v f', wf_file f ->
  (obs_list f = [] \/ exists o b, obs_list f = [o] /\ op_nobs o = [b]) -> (f_spectra f <> [] \/ obs_list f <> []) ->
  replace_mean_vector v f = Ok f' ->
  length v = length (values f) /\ wf_file f' /\ points f' = points f /\ f_cov f' = f_cov f /\ mean_vector f' = Ok v.
Proof.
  intros f v f' W Ob NE H. unfold replace_mean_vector in H. apply bind_ok in H as (lens & El & H).
  set (nsp := sum_nat (map (fun s => length (sp_val s)) (f_spectra f))) in *.
  destruct (Nat.eqb_spec (nsp + sum_nat lens) (length v)) as [Lv |]; [| discriminate H].
  apply bind_ok in H as (obs & Eo & H). injection H as <-.
  assert (Vsp : length (flat_map sp_val (f_spectra f)) = nsp).
  { unfold nsp. clear. induction (f_spectra f) as [| s l IH]; cbn; [reflexivity |]. rewrite app_length, IH. reflexivity. }
  destruct (put_values_spec v (f_spectra f) 0 (wf_spectra f W)) as (P1' & P2' & P3'); [fold nsp; lia |].
  fold nsp in P3'. cbn [Nat.add] in P3'.
  set (f' := mkFile (put_values v 0 (f_spectra f)) (match f_nobs f with None => None | Some _ => Some obs end) (f_info f) (f_cov f)).
  assert (G : exists b', obs_list f' = obs /\ Forall wf_op obs /\ flat_map op_points obs = flat_map op_points (obs_list f) /\
              flat_map (fun o => concat (op_nobs o)) obs = b' /\ slice 0 nsp v ++ b' = v /\
              (obs_list f <> [] -> obs <> []) /\ length v = length (values f)).
  { unfold values. rewrite app_length, Vsp. destruct Ob as [Ob | (o & b & Ob & Eb)].
    - rewrite Ob in *. cbn in El. injection El as <-. cbn in Eo. injection Eo as <-.
      exists []. cbn in Lv. rewrite Nat.add_0_r in Lv.
      split. { unfold f', obs_list in *. cbn. destruct (f_nobs f); reflexivity. }
      split; [constructor |]. split; [reflexivity |]. split; [reflexivity |].
      split; [rewrite Lv, slice_all; apply app_nil_r |]. split; [easy |]. cbn. lia.
    - rewrite Ob in *. cbn in El. rewrite Eb in El. cbn in El. rewrite app_nil_r in El. injection El as <-.
      cbn in Lv. rewrite Nat.add_0_r in Lv. cbn in Eo. rewrite Eb in Eo. cbn in Eo. injection Eo as <-.
      pose proof (wf_obs f W) as Wo. rewrite Ob in Wo. inversion Wo as [| ? ? Woo _]; subst.
      assert (LS : length (slice nsp (nsp + length b) v) = length b) by (rewrite slice_length; lia).
      exists (slice nsp (nsp + length b) v).
      split. { unfold f', obs_list in *. cbn. destruct (f_nobs f); [reflexivity | discriminate Ob]. }
      split. { constructor; [| constructor]. destruct Woo as [N1 N2]. rewrite Eb in N1. constructor; cbn; [now rewrite LS |].
        intros x y [<- | []] [<- | []]. reflexivity. }
      split. { cbn. unfold op_points. cbn. rewrite Eb. cbn. unfold bin_points. now rewrite LS. }
      split. { cbn. now rewrite !app_nil_r. }
      split. { rewrite slice_slice by lia. rewrite Lv. apply slice_all. }
      split; [discriminate |]. cbn. rewrite Eb. cbn. rewrite !app_nil_r. lia. }
  destruct G as (b' & G1 & G2 & G3 & G4 & G5 & G6 & G7).
  assert (PT : points f' = points f) by (unfold points; rewrite G1, G3; cbn [f_spectra f']; now rewrite P2').
  assert (W' : wf_file f').
  { constructor; [exact P1' | rewrite G1; exact G2 |]. intros m Hm. rewrite PT. destruct (wf_cov f W m Hm) as (A & B).
    split; [exact A |]. cbn. destruct (f_nobs f); [discriminate | congruence]. }
  split; [exact G7 |]. split; [exact W' |]. split; [exact PT |]. split; [reflexivity |].
  rewrite mean_vector_values; [| exact W' |].
  - f_equal. unfold values. rewrite G1, G4. cbn [f_spectra f']. rewrite P3'. exact G5.
  - destruct NE as [NE | NE]; [left | right; rewrite G1; now apply G6]. cbn. destruct (f_spectra f); [congruence | discriminate].
Qed.
