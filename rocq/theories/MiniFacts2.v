(** The likelihood of mini_2pt_like.py: chi-square and what is written. *)
From Coq Require Import ZArith.
From Verif Require Import Base Spec QuadFacts FftModel PipeModel OptModel TpModel TpSpec TpFacts TpFacts6 ChainModel ChainFacts PredSpec MiniModel MiniSpec MiniFacts.
From Coq Require Import List.
Open Scope R_scope.

(** ** Sums over blocks *)
Lemma sumR_split n m f : sumR (n + m) f = sumR n f + sumR m (fun i => f (n + i)%nat).
Proof. induction m as [|m IH]; [rewrite Nat.add_0_r; cbn; ring|]. rewrite Nat.add_succ_r. cbn. rewrite IH. ring. Qed.
Lemma total_app a b : total (a ++ b)%list = total a + total b.
Proof. unfold total. induction a as [|x a IH]; cbn; [ring|rewrite IH; ring]. Qed.
Lemma total_seq f : forall n, total (map f (seq 0 n)) = sumR n f.
Proof. induction n as [|n IH]; [reflexivity|]. rewrite seq_S, map_app, total_app, IH. cbn. ring. Qed.
Lemma starts_all nr : starts nr (List.length nr) = sum_nat nr.
Proof. unfold starts. now rewrite firstn_all. Qed.
Lemma starts_S nr i : (i < List.length nr)%nat -> starts nr (S i) = (starts nr i + nth i nr 0)%nat.
Proof.
  unfold starts, sum_nat. revert i. induction nr as [|x nr IH]; intros i H; cbn in H; [lia|]. destruct i as [|i]; [cbn; lia|].
  change (firstn (S (S i)) (x :: nr)) with (x :: firstn (S i) nr). cbn [fold_right]. rewrite IH by lia. cbn. lia.
Qed.
Lemma starts_le nr i : (starts nr i <= sum_nat nr)%nat.
Proof.
  unfold starts, sum_nat. revert i. induction nr as [|x nr IH]; intros [|i]; cbn; try lia. specialize (IH i). lia.
Qed.
Lemma starts_end nr i : (i < List.length nr)%nat -> (starts nr i + nth i nr 0 <= sum_nat nr)%nat.
Proof. intro H. rewrite <- starts_S by exact H. apply starts_le. Qed.
Lemma sum_blocks nr g : forall k, (k <= List.length nr)%nat -> sumR k (fun m => sumR (nth m nr 0%nat) (fun a => g (starts nr m + a)%nat)) = sumR (starts nr k) g.
Proof.
  induction k as [|k IH]; intro H; [reflexivity|]. cbn [sumR]. rewrite IH by lia. rewrite starts_S by lia. now rewrite sumR_split.
Qed.
Lemma concat_length (r : list (list R)) : List.length (List.concat r) = sum_nat (map (@List.length R) r).
Proof. induction r as [|x r IH]; [reflexivity|]. cbn. rewrite app_length, IH. reflexivity. Qed.
Lemma concat_nth : forall (r : list (list R)) m a, (m < List.length r)%nat -> (a < List.length (nth m r []))%nat ->
  nth (starts (map (@List.length R) r) m + a) (List.concat r) 0 = nth a (nth m r []) 0.
Proof.
  induction r as [|x r IH]; intros m a Hm Ha; cbn in Hm; [lia|]. destruct m as [|m].
  - cbn in *. now rewrite app_nth1.
  - unfold starts in *. cbn [map firstn List.concat]. cbn [nth] in *. unfold sum_nat in *. cbn [fold_right]. rewrite app_nth2 by lia.
    replace (List.length x + _ + a - List.length x)%nat with (fold_right Nat.add 0%nat (firstn m (map (@List.length R) r)) + a)%nat by lia. apply IH; [lia|exact Ha].
Qed.

Lemma forall2_len {A B} (P : A -> B -> Prop) l l' : Forall2 P l l' -> List.length l = List.length l'.
Proof. induction 1; cbn; congruence. Qed.
Lemma mapr_err {A B} (g : A -> res B) e : forall l, mapr g l = Err e -> exists x, In x l /\ g x = Err e.
Proof.
  induction l as [|x l IH]; cbn; [discriminate|]. destruct (g x) as [y|e'] eqn:E; cbn.
  - destruct (mapr g l) as [ys|e'] eqn:M; cbn; [discriminate|]. intro H. inversion H; subst. destruct (IH eq_refl) as (z & I & Hz). exists z. split; [now right|exact Hz].
  - intro H. inversion H; subst. exists x. split; [now left|exact E].
Qed.
Lemma mapr_seq {B} (g : nat -> res B) (d : B) n ts : mapr g (seq 0 n) = Ok ts -> List.length ts = n /\ forall i, (i < n)%nat -> g i = Ok (nth i ts d).
Proof.
  intro H. apply mapr_ok in H. assert (L : List.length ts = n) by (rewrite <- (forall2_len _ _ _ H); apply seq_length). split; [exact L|].
  intros i Hi. assert (Q : forall l l', Forall2 (fun x y => g x = Ok y) l l' -> forall j, (j < List.length l)%nat -> g (nth j l 0%nat) = Ok (nth j l' d)).
  { induction 1 as [|x y l l' E F IH]; intros j Hj; cbn in Hj; [lia|]. destruct j; [exact E|]. apply IH. lia. }
  specialize (Q _ _ H i ltac:(rewrite seq_length; exact Hi)). now rewrite seq_nth in Q by exact Hi.
Qed.
Lemma mapr_seq_run {B} (g : nat -> res B) (f : nat -> B) n : (forall i, (i < n)%nat -> g i = Ok (f i)) -> mapr g (seq 0 n) = Ok (map f (seq 0 n)).
Proof.
  intro H. apply mapr_of. assert (Q : forall l, (forall i, In i l -> (i < n)%nat) -> Forall2 (fun x y => g x = Ok y) l (map f l)).
  { induction l as [|x l IH]; intro G; cbn; constructor; [apply H, G; now left|apply IH; intros i I; apply G; now right]. }
  apply Q. intros i I. apply in_seq in I. lia.
Qed.

(** ** chi-square *)
Lemma list_nat_eq (a b : list nat) : List.length a = List.length b -> (forall i, (i < List.length a)%nat -> nth i a 0%nat = nth i b 0%nat) -> a = b.
Proof. intros L H. apply (nth_ext a b 0%nat 0%nat L H). Qed.
Lemma span_full n a len l : span n a len = l -> l = len -> (0 < len)%nat -> (a + len <= n)%nat.
Proof. unfold span. intros. lia. Qed.
Section Chi.
  Variable (inv : mat).
  Lemma term_ok nr r m n v : term inv nr r m n = Ok v -> nth m nr 0%nat = List.length (nth m r []) -> nth n nr 0%nat = List.length (nth n r []) ->
    v = sumR (nth m nr 0%nat) (fun a => sumR (nth n nr 0%nat) (fun b =>
          nth a (nth m r []) 0 * m_at inv (starts nr m + a) (starts nr n + b) * nth b (nth n r []) 0)).
  Proof.
    unfold term. intros H Em En. destruct (_ && _)%bool; [|discriminate]. inversion H. rewrite Em, En. apply sumR_ext. intros a _. rewrite <- sumR_scal.
    apply sumR_ext. intros b _. ring.
  Qed.
  Lemma chi_form r v : let nr := map (@List.length R) r in chi_square inv nr r = Ok v ->
    v = form (sum_nat nr) (m_at inv) (fun a => nth a (List.concat r) 0) /\ (forall m, (m < List.length r)%nat -> (0 < nth m nr 0)%nat -> (starts nr m + nth m nr 0 <= m_n inv)%nat).
  Proof.
    intros nr H. unfold chi_square in H. apply bind_ok in H as (ts & Hts & H). inversion H; subst v; clear H.
    assert (LN : List.length nr = List.length r) by apply map_length. rewrite LN in Hts.
    assert (NR : forall m, nth m nr 0%nat = List.length (nth m r [])) by (intro m; unfold nr; change 0%nat with (List.length (@nil R)); apply map_nth).
    pose proof (mapr_seq _ 0 _ _ Hts) as [L V]. 
    assert (E : ts = map (fun m => nth m ts 0) (seq 0 (List.length r))).
    { apply nth_ext with 0 0; [now rewrite map_length, seq_length|]. intros i Hi. rewrite (nth_indep (map _ _) 0 (nth 0 ts 0)) by (rewrite map_length, seq_length; lia).
      rewrite (map_nth (fun m => nth m ts 0)). rewrite seq_nth by lia. reflexivity. }
    assert (W : forall m, (m < List.length r)%nat -> exists us, mapr (term inv nr r m) (seq 0 (List.length r)) = Ok us /\ nth m ts 0 = total us).
    { intros m Hm. specialize (V m Hm). apply bind_ok in V as (us & Hus & V). exists us. split; [exact Hus|]. now inversion V. }
    split.
    - rewrite E, total_seq. unfold form.
      set (F := fun a b => nth a (List.concat r) 0 * m_at inv a b * nth b (List.concat r) 0).
      transitivity (sumR (List.length r) (fun m => sumR (nth m nr 0%nat) (fun a => sumR (sum_nat nr) (F (starts nr m + a)%nat)))).
      2:{ pose proof (sum_blocks nr (fun a => sumR (sum_nat nr) (F a)) (List.length r) ltac:(lia)) as Q.
          replace (starts nr (List.length r)) with (sum_nat nr) in Q by (rewrite <- LN; symmetry; apply starts_all). exact Q. }
      apply sumR_ext. intros m Hm. destruct (W m Hm) as (us & Hus & ->). destruct (mapr_seq _ 0 _ _ Hus) as [Lu Vu].
      assert (Eu : us = map (fun n => nth n us 0) (seq 0 (List.length r))).
      { apply nth_ext with 0 0; [now rewrite map_length, seq_length|]. intros i Hi. rewrite (nth_indep (map _ _) 0 (nth 0 us 0)) by (rewrite map_length, seq_length; lia).
        rewrite (map_nth (fun m => nth m us 0)). rewrite seq_nth by lia. reflexivity. }
      rewrite Eu, total_seq.
      transitivity (sumR (List.length r) (fun n => sumR (nth m nr 0%nat) (fun a => sumR (nth n nr 0%nat) (fun b => F (starts nr m + a)%nat (starts nr n + b)%nat)))).
      + apply sumR_ext. intros n Hn. rewrite (term_ok _ _ _ _ _ (Vu n Hn)) by apply NR. apply sumR_ext. intros a Ha. apply sumR_ext. intros b Hb. unfold F, nr.
        rewrite !concat_nth; try assumption; [reflexivity| |]; rewrite NR in *; assumption.
      + rewrite sumR_swap. apply sumR_ext. intros a _. rewrite (sum_blocks nr (F (starts nr m + a)%nat)) by lia. now rewrite <- LN, starts_all.
    - intros m Hm P. destruct (W m Hm) as (us & Hus & _). destruct (mapr_seq _ 0 _ _ Hus) as [_ Vu]. specialize (Vu m Hm). unfold term in Vu.
      destruct (_ && _)%bool eqn:Q in Vu; [|discriminate]. apply andb_true_iff in Q as [Q _]. apply Nat.eqb_eq in Q. now apply (span_full _ _ _ _ Q).
  Qed.
  Lemma chi_run r : let nr := map (@List.length R) r in (sum_nat nr <= m_n inv)%nat -> exists v, chi_square inv nr r = Ok v.
  Proof.
    intros nr H. unfold chi_square. assert (LN : List.length nr = List.length r) by apply map_length. rewrite LN.
    assert (NR : forall m, nth m nr 0%nat = List.length (nth m r [])) by (intro m; unfold nr; change 0%nat with (List.length (@nil R)); apply map_nth).
    assert (T : forall m n, (m < List.length r)%nat -> (n < List.length r)%nat -> exists v, term inv nr r m n = Ok v).
    { intros m n Hm Hn. unfold term. pose proof (starts_end nr m ltac:(lia)) as Bm. pose proof (starts_end nr n ltac:(lia)) as Bn.
      replace (span (m_n inv) (starts nr m) (nth m nr 0%nat)) with (nth m nr 0%nat) by (unfold span; lia).
      replace (span (m_n inv) (starts nr n) (nth n nr 0%nat)) with (nth n nr 0%nat) by (unfold span; lia).
      rewrite !NR, !Nat.eqb_refl. eexists. reflexivity. }
    destruct (mapr_total (fun m => bind (mapr (term inv nr r m) (seq 0 (List.length r))) (fun ts => Ok (total ts))) (seq 0 (List.length r))) as (ts & Hts).
    - intros m I. apply in_seq in I. destruct (mapr_total (term inv nr r m) (seq 0 (List.length r))) as (us & Hus); [intros n J; apply in_seq in J; apply T; lia|].
      rewrite Hus. eexists. reflexivity.
    - rewrite Hts. eexists. reflexivity.
  Qed.
  (** A block of the data beyond the end of the matrix is refused. *)
  Lemma chi_small r : let nr := map (@List.length R) r in (m_n inv < sum_nat nr)%nat -> chi_square inv nr r = Err "ValueError".
  Proof.
    intros nr H. destruct (chi_square inv nr r) as [v|e] eqn:E.
    2:{ f_equal. unfold chi_square in E. destruct (mapr _ _) as [ts|e'] eqn:M in E; [discriminate|]. cbn in E. inversion E; subst e'. apply mapr_err in M as (m & _ & M).
        destruct (mapr _ _) as [us|e'] eqn:M' in M; [discriminate|]. cbn in M. inversion M; subst e'. apply mapr_err in M' as (n & _ & M'). unfold term in M'. destruct (_ && _)%bool in M'; congruence. }
    exfalso. destruct (chi_form r v E) as [_ B]. fold nr in B.
    assert (LN : List.length nr = List.length r) by apply map_length.
    assert (G : forall k, (k <= List.length r)%nat -> (starts nr k <= m_n inv)%nat).
    { induction k as [|k IH]; intro Hk; [unfold starts; cbn; lia|]. rewrite starts_S by lia. destruct (Nat.eq_dec (nth k nr 0%nat) 0%nat) as [Z0|NZ]; [rewrite Z0; specialize (IH ltac:(lia)); lia|].
      apply B; lia. }
    specialize (G (List.length r) (le_n _)). rewrite <- LN, starts_all in G. lia.
  Qed.
End Chi.

(** ** Residuals *)
Lemma residuals_ok : forall y t r, map (@List.length R) y = map (@List.length R) t -> residuals y t = Ok r ->
  map (@List.length R) r = map (@List.length R) y /\ forall a, nth a (List.concat r) 0 = nth a (List.concat y) 0 - nth a (List.concat t) 0.
Proof.
  unfold residuals. induction y as [|y ys IH]; intros [|t ts] r L H; cbn in L; try discriminate.
  - inversion H. split; [reflexivity|]. intro a. cbn. destruct a; ring.
  - cbn [combine mapr] in H. apply bind_ok in H as (d & Hd & H). apply bind_ok in H as (ds & Hds & H). inversion H; subst r. injection L as L0 L.
    destruct (IH ts ds L Hds) as [A B]. unfold bcast2 in Hd. cbn [fst snd] in Hd. rewrite L0, Nat.eqb_refl in Hd. injection Hd as Hd.
    assert (LD : List.length d = List.length y) by (subst d; rewrite map_length, combine_length; lia).
    split; [cbn; congruence|]. intro a. cbn [List.concat]. destruct (Nat.lt_ge_cases a (List.length y)) as [E|E].
    + rewrite !app_nth1 by lia. subst d. rewrite (nth_indep _ 0 ((fun p : R * R => fst p - snd p) (0, 0))) by (rewrite map_length, combine_length; lia).
      rewrite (map_nth (fun p : R * R => fst p - snd p)), combine_nth by congruence. reflexivity.
    + rewrite !app_nth2 by lia. rewrite LD, B, L0. reflexivity.
Qed.
Lemma residuals_run : forall y t, map (@List.length R) y = map (@List.length R) t -> exists r, residuals y t = Ok r.
Proof.
  unfold residuals. induction y as [|y ys IH]; intros [|t ts] L; cbn in L; try discriminate; [now exists []|]. injection L as L0 L.
  destruct (IH ts L) as [r Hr]. cbn [combine mapr]. rewrite Hr. unfold bcast2. cbn [fst snd]. rewrite L0, Nat.eqb_refl. eexists. reflexivity.
Qed.

(** ** execute *)
Section Ex.
  Variables (to_mpc : string -> option R) (c : mconfig) (b : dblock).
  Let d := List.concat (m_y c).
  Definition written_like (ts : list (list R)) (x : R) : dblock :=
    let b := bput (bput b "data_vector" (m_like c ++ "_CHI2") (BDbl x)) "likelihoods" (m_like c ++ "_LIKE") (BDbl (- (1 / 2) * x)) in
    if m_keep c then bput (bput b "data_vector" "theory" (BArr (List.concat ts))) "data_vector" "data" (BArr (List.concat (m_y c))) else b.
  Lemma execute_inv b' : mini_execute to_mpc c b = (b', Ok tt) -> exists ts r x,
    theory_bins to_mpc c b = Ok ts /\ residuals (m_y c) ts = Ok r /\ chi_square (m_inv c) (map (@List.length R) (m_y c)) r = Ok x /\
    (m_keep c = true -> ts <> []) /\ b' = written_like ts x.
  Proof.
    unfold mini_execute. destruct (theory_bins to_mpc c b) as [ts|e] eqn:T; cbn [bind]; [|discriminate].
    destruct (residuals (m_y c) ts) as [r|e] eqn:Rr; cbn [bind]; [|discriminate].
    destruct (chi_square _ _ r) as [x|e] eqn:X; cbn [bind]; [|discriminate]. intro H. exists ts, r, x. split; [reflexivity|]. split; [exact Rr|]. split; [exact X|].
    unfold written_like. destruct (m_keep c); [|split; [discriminate|now inversion H]]. destruct ts; [discriminate|]. split; [discriminate|]. now inversion H.
  Qed.
  Lemma execute_run ts r x : theory_bins to_mpc c b = Ok ts -> residuals (m_y c) ts = Ok r ->
    chi_square (m_inv c) (map (@List.length R) (m_y c)) r = Ok x -> ts <> [] -> mini_execute to_mpc c b = (written_like ts x, Ok tt).
  Proof.
    intros T Rr X N. unfold mini_execute. rewrite T. cbn [bind]. rewrite Rr. cbn [bind]. rewrite X. cbn [bind]. unfold written_like.
    destruct (m_keep c); [|reflexivity]. destruct ts; [contradiction|reflexivity].
  Qed.
  Lemma execute_err e : theory_bins to_mpc c b = Err e -> mini_execute to_mpc c b = (b, Err e).
  Proof. intro H. unfold mini_execute. rewrite H. reflexivity. Qed.

  (** Chi-square of a run whose theory has the shape of the data. *)
  Lemma execute_chi b' : mini_execute to_mpc c b = (b', Ok tt) -> forall ts, theory_bins to_mpc c b = Ok ts -> map (@List.length R) ts = map (@List.length R) (m_y c) ->
    exists x, b' = written_like ts x /\ (List.length d <= m_n (m_inv c))%nat /\
      x = form (List.length d) (m_at (m_inv c)) (fun a => nth a d 0 - nth a (List.concat ts) 0).
  Proof.
    intros H ts T L. destruct (execute_inv _ H) as (ts' & r & x & T' & Rr & X & _ & ->). rewrite T in T'. injection T' as <-. exists x. split; [reflexivity|].
    destruct (residuals_ok _ _ _ (eq_sym L) Rr) as [Lr Vr]. rewrite <- Lr in X.
    assert (LD : List.length d = sum_nat (map (@List.length R) r)) by (unfold d; rewrite concat_length; congruence).
    split.
    - destruct (Nat.lt_ge_cases (m_n (m_inv c)) (List.length d)) as [S|S]; [|exact S]. rewrite (chi_small _ r) in X by lia. discriminate.
    - destruct (chi_form _ _ _ X) as [-> _]. rewrite LD. unfold form. apply sumR_ext. intros i _. apply sumR_ext. intros j _. unfold d. now rewrite !Vr.
  Qed.
  Lemma execute_ok ts : theory_bins to_mpc c b = Ok ts -> map (@List.length R) ts = map (@List.length R) (m_y c) -> ts <> [] ->
    (List.length d <= m_n (m_inv c))%nat -> exists b', mini_execute to_mpc c b = (b', Ok tt).
  Proof.
    intros T L N M. destruct (residuals_run _ _ (eq_sym L)) as [r Rr]. destruct (residuals_ok _ _ _ (eq_sym L) Rr) as [Lr _].
    destruct (chi_run (m_inv c) r) as [x X]; [rewrite Lr, <- concat_length; exact M|]. rewrite Lr in X. eexists. now apply (execute_run ts r x).
  Qed.
  Lemma execute_small ts : theory_bins to_mpc c b = Ok ts -> map (@List.length R) ts = map (@List.length R) (m_y c) ->
    (m_n (m_inv c) < List.length d)%nat -> mini_execute to_mpc c b = (b, Err "ValueError").
  Proof.
    intros T L M. destruct (residuals_run _ _ (eq_sym L)) as [r Rr]. destruct (residuals_ok _ _ _ (eq_sym L) Rr) as [Lr _].
    unfold mini_execute. rewrite T. cbn [bind]. rewrite Rr. cbn [bind]. rewrite <- Lr. rewrite chi_small; [reflexivity|]. rewrite Lr, <- concat_length. exact M.
  Qed.
End Ex.
