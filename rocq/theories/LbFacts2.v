(** Facts about the legacy beta_nl modules: the table against that of NonLinearBias. *)
From Coq Require Import ZArith Lia Lra.
From Verif Require Import Base BaseFacts Quad Interp FftModel BnlModel BnlFacts BnlFacts2 IaFacts ChainModel LhModel LbModel LbSpec.
Open Scope R_scope.

(** ** The fitted constant is the mean *)
Lemma square_error_mean ys a : ys <> [] ->
  square_error ys a = square_error ys (mean ys) + INR (List.length ys) * ((a - mean ys) * (a - mean ys)).
Proof.
  intro N. assert (G : forall m, square_error ys a = square_error ys m + INR (List.length ys) * ((a - m) * (a - m)) + 2 * (m - a) * (fold_right Rplus 0 ys - INR (List.length ys) * m)).
  { intro m. unfold square_error. clear N. induction ys as [|y ys IH]; [cbn; lra|].
    cbn [map fold_right]. rewrite IH. change (List.length (y :: ys)) with (S (List.length ys)). rewrite S_INR. ring. }
  rewrite (G (mean ys)). replace (fold_right Rplus 0 ys - INR (List.length ys) * mean ys) with 0; [ring|].
  unfold mean. assert (INR (List.length ys) <> 0) by (apply not_0_INR; destruct ys; [easy|discriminate]). field. assumption.
Qed.
Lemma least_squares_mean fit xs ys : least_squares fit -> List.length xs = List.length ys -> ys <> [] -> fit xs ys = Ok (mean ys).
Proof.
  intros F L N. destruct (F xs ys L N) as (a & E & M). rewrite E. f_equal.
  pose proof (M (mean ys)) as Q. rewrite (square_error_mean ys a N) in Q.
  assert (0 < INR (List.length ys)) by (apply lt_0_INR; destruct ys; [easy|cbn; lia]).
  assert (Z : (a - mean ys) * (a - mean ys) <= 0).
  { apply (Rmult_le_reg_l (INR (List.length ys))); [assumption|]. lra. }
  pose proof (Rle_0_sqr (a - mean ys)) as P. unfold Rsqr in P.
  assert (Z0 : a - mean ys = 0) by (apply Rsqr_0_uniq; unfold Rsqr; lra). lra.
Qed.

(** ** One pair of masses *)
Lemma lb_pair_class phh plin quad fit ks kmax m1 m2 : least_squares fit -> filter hk_mask ks <> [] ->
  lb_pair phh plin quad fit ks kmax m1 m2 = beta_final phh plin quad ks kmax m1 m2.
Proof.
  intros F N. unfold lb_pair. rewrite least_squares_mean; [|exact F|now rewrite map_length|destruct (filter hk_mask ks); [easy|discriminate]].
  cbn [bind]. unfold beta_final, raw_beta, shot. rewrite Rmult_1_l. reflexivity.
Qed.
Lemma log10_200 : 2 + 3 / 10 <= log10 200.
Proof.
  rewrite <- (log10_pow10 (2 + 3 / 10)). apply log10_le; [apply pow10_pos|].
  unfold pow10, ten. apply Rnot_lt_le. intro H.
  assert (E : Rpower 10 (2 + 3 / 10) = 100 * Rpower 10 (3 / 10)).
  { rewrite Rpower_plus. f_equal. replace 2 with (INR 2) by (simpl; lra). rewrite Rpower_pow by lra. lra. }
  rewrite E in H. set (x := Rpower 10 (3 / 10)) in *.
  assert (X : x ^ 10 = 1000).
  { unfold x. rewrite <- Rpower_pow by apply exp_pos. rewrite Rpower_mult. replace (3 / 10 * INR 10) with (INR 3) by (simpl; lra).
    rewrite Rpower_pow by lra. lra. }
  assert (2 <= x) by lra. assert (2 ^ 10 <= x ^ 10) by (apply pow_incr; lra). lra.
Qed.
Lemma mask_grid : filter hk_mask (map grid_k (seq 0 lenk)) <> [].
Proof.
  assert (B : 100 < grid_k 998 < 200).
  { unfold grid_k, logspace. pose proof log10_200 as L. split.
    - rewrite <- (pow10_log10 100) by lra. apply pow10_lt.
      assert (E : log10 100 = 2).
      { replace 100 with (pow10 2); [apply log10_pow10|]. unfold pow10, ten. replace 2 with (INR 2) by (simpl; lra). rewrite Rpower_pow by lra. lra. }
      rewrite E. unfold linspace, lenk. change (Nat.eqb (10 * 10 * 10) 1) with false. change (Nat.eqb 999 (10 * 10 * 10)) with false. cbv iota.
      replace (INR 998) with 998 by (rewrite INR_IZR_INZ; reflexivity). replace (INR (10 * 10 * 10 - 1)) with 999 by (rewrite INR_IZR_INZ; reflexivity). lra.
    - rewrite <- (pow10_log10 200) at 2 by lra. apply pow10_lt.
      unfold linspace, lenk. change (Nat.eqb (10 * 10 * 10) 1) with false. change (Nat.eqb 999 (10 * 10 * 10)) with false. cbv iota.
      replace (INR 998) with 998 by (rewrite INR_IZR_INZ; reflexivity). replace (INR (10 * 10 * 10 - 1)) with 999 by (rewrite INR_IZR_INZ; reflexivity). lra. }
  assert (I : In (grid_k 998) (filter hk_mask (map grid_k (seq 0 lenk)))).
  { apply filter_In. split.
    - apply in_map. apply in_seq. unfold lenk. lia.
    - unfold hk_mask. destruct (Rlt_dec 100 (grid_k 998)); [|lra]. destruct (Rlt_dec (grid_k 998) 200); [reflexivity|lra]. }
  intro H. rewrite H in I. exact I.
Qed.

(** ** The double loop *)
Section Loop.
  Context {A : Type}.
  Variable b : nat -> nat -> res A.
  Variable n : nat.
  (** Rows before [i] agree and row [i] agrees before [j]; the class's table is symmetric that far. *)
  Definition in_step (i j : nat) (t t' : nat -> nat -> A) : Prop :=
    (forall a c, (a < i)%nat -> (c < n)%nat -> t' a c = t a c) /\ (forall c, (c < j)%nat -> t' i c = t i c) /\
    (forall a c, (a < i)%nat -> (a <= c < n)%nat -> t a c = t c a) /\ (forall c, (i <= c < j)%nat -> t i c = t c i).
  Lemma copy_row i : (i < n)%nat -> forall m t t' rest, (m <= i)%nat -> in_step i (i - m) t t' -> (forall a c, (a < i)%nat -> (c < n)%nat -> t' a c = t a c) ->
    exists t1, lb_inner b i (seq (i - m) m ++ rest) t' = lb_inner b i rest t1 /\ in_step i i t t1.
  Proof.
    intros Hi. induction m as [|m IH]; intros t t' rest Hm St R.
    - exists t'. split; [reflexivity|]. now rewrite Nat.sub_0_r in St.
    - cbn [seq app lb_inner]. set (j := (i - S m)%nat) in *. rewrite (proj2 (Nat.ltb_lt j i)) by (unfold j; lia).
      replace (S j) with (i - m)%nat by (unfold j; lia). apply IH; [lia| |].
      + destruct St as (S1 & S2 & S3 & S4). unfold set2. repeat split.
        * intros a c Ha Hc. rewrite (proj2 (Nat.eqb_neq a i)) by lia. cbn. now apply S1.
        * intros c Hc. rewrite Nat.eqb_refl. cbn. destruct (Nat.eqb_spec c j) as [->|Nc].
          -- rewrite S1 by (unfold j; lia). apply S3; unfold j; lia.
          -- apply S2. unfold j in *. lia.
        * exact S3.
        * intros c Hc. lia.
      + intros a c Ha Hc. unfold set2. rewrite (proj2 (Nat.eqb_neq a i)) by lia. cbn. now apply R.
  Qed.
  Lemma finish_row i : forall m j t t', (i <= j)%nat -> (j + m <= n)%nat -> in_step i j t t' ->
    agree (in_step i (j + m)) (inner b i (seq j m) t) (lb_inner b i (seq j m) t').
  Proof.
    induction m as [|m IH]; intros j t t' Hj Hm St; cbn [seq inner lb_inner].
    - now rewrite Nat.add_0_r.
    - rewrite (proj2 (Nat.ltb_ge j i)) by lia. destruct (b i j) as [v|e]; cbn [bind]; [|reflexivity].
      replace (j + S m)%nat with (S j + m)%nat by lia. apply IH; [lia|lia|].
      destruct St as (S1 & S2 & S3 & S4).
      assert (T2 : forall a c, (if Nat.eqb j i then set2 t i j v else set2 (set2 t i j v) j i v) a c =
        if ((Nat.eqb a i && Nat.eqb c j) || (Nat.eqb a j && Nat.eqb c i))%bool then v else t a c).
      { intros a c. unfold set2. destruct (Nat.eqb_spec j i) as [->|N].
        - destruct (Nat.eqb_spec a i), (Nat.eqb_spec c i); reflexivity.
        - destruct (Nat.eqb_spec a i), (Nat.eqb_spec c j), (Nat.eqb_spec a j), (Nat.eqb_spec c i); reflexivity. }
      repeat split.
      + intros a c Ha Hc. rewrite T2. unfold set2. rewrite (proj2 (Nat.eqb_neq a i)), (proj2 (Nat.eqb_neq a j)) by lia. cbn. now apply S1.
      + intros c Hc. rewrite T2. unfold set2. rewrite Nat.eqb_refl. cbn. destruct (Nat.eqb_spec c j) as [->|N]; [reflexivity|].
        rewrite S2 by lia. destruct (Nat.eqb_spec i j) as [<-|]; cbn; [|reflexivity]. now rewrite (proj2 (Nat.eqb_neq c i)) by lia.
      + intros a c Ha Hc. rewrite !T2. rewrite (proj2 (Nat.eqb_neq a i)), (proj2 (Nat.eqb_neq a j)) by lia. rewrite !Bool.andb_false_r. cbn. now apply S3.
      + intros c Hc. rewrite !T2. rewrite !Nat.eqb_refl. rewrite !Bool.andb_true_r. cbn [andb].
        destruct (Nat.eqb_spec c j) as [->|N]; [now rewrite Bool.orb_true_r|]. cbn [orb].
        destruct (Nat.eqb_spec i j) as [<-|]; [lia|]. cbn [andb]. rewrite Bool.andb_false_r. apply S4. lia.
  Qed.
  Lemma rows_agree : forall m i t t', (i + m = n)%nat -> in_step i 0 t t' ->
    agree (in_step n 0) (outer b n (seq i m) t) (lb_outer b n (seq i m) t').
  Proof.
    induction m as [|m IH]; intros i t t' Hi St; cbn [seq outer lb_outer].
    - replace n with i by lia. exact St.
    - replace (seq 0 n) with (seq (i - i) i ++ seq i (n - i))%list.
      2: { rewrite Nat.sub_diag. rewrite <- seq_app. f_equal. lia. }
      destruct (copy_row i ltac:(lia) i t t' (seq i (n - i)) (le_n _)) as (t1 & E & S1); [rewrite Nat.sub_diag; exact St|exact (proj1 St)|].
      rewrite E. pose proof (finish_row i (n - i) i t t1 (le_n _) ltac:(lia) S1) as F. replace (i + (n - i))%nat with n in F by lia.
      destruct (inner b i (seq i (n - i)) t) as [u|], (lb_inner b i (seq i (n - i)) t1) as [u'|]; cbn [agree bind] in *; try easy.
      apply IH; [lia|]. destruct F as (F1 & F2 & F3 & F4). repeat split.
      + intros a c Ha Hc. destruct (Nat.eq_dec a i) as [->|]; [now apply F2|apply F1; lia].
      + intros c Hc. lia.
      + intros a c Ha Hc. destruct (Nat.eq_dec a i) as [->|]; [now apply F4|apply F3; lia].
      + intros c Hc. lia.
  Qed.
  Lemma loops_agree t : agree (fun u u' => forall a c, (a < n)%nat -> (c < n)%nat -> u' a c = u a c) (outer b n (seq 0 n) t) (lb_outer b n (seq 0 n) t).
  Proof.
    pose proof (rows_agree n 0 t t eq_refl) as H. destruct (outer b n (seq 0 n) t), (lb_outer b n (seq 0 n) t); cbn [agree] in *;
      try (apply H; repeat split; intros; lia).
  Qed.
End Loop.

(** ** The interpolation function *)
Lemma nearest_lt n x q : (2 <= n)%nat -> (nearest n x q < n)%nat.
Proof. intro H. unfold nearest, clip_idx. destruct (Rle_dec _ _); lia. Qed.
Lemma outer_ext {A} (b b' : nat -> nat -> res A) n : (forall i j, b i j = b' i j) -> forall is t, lb_outer b n is t = lb_outer b' n is t.
Proof.
  intro E. assert (I : forall i js t, lb_inner b i js t = lb_inner b' i js t).
  { intros i js. induction js as [|j js IH]; intro t; cbn [lb_inner]; [reflexivity|]. destruct (Nat.ltb j i); [apply IH|].
    rewrite E. destruct (b' i j); cbn [bind]; [apply IH|reflexivity]. }
  induction is as [|i is IH]; intro t; cbn [lb_outer]; [reflexivity|]. rewrite I. destruct (lb_inner b' i (seq 0 n) t); cbn [bind]; [apply IH|reflexivity].
Qed.
Lemma interpolation_class phh plin quad fit Om : least_squares fit ->
  agree (fun f g => forall x y w, f x y w = g x y w) (lb_interpolation phh plin quad fit Om) (build_interp phh plin quad Om (1 / 100)).
Proof.
  intro F. unfold lb_interpolation, build_interp, lb_darkquest, compute_bnl_darkquest.
  set (lm := fun i => log10 (grid_M Om i)). set (ks := map grid_k (seq 0 lenk)). set (kmax := snd (minimum_halo_mass Om)).
  set (M := map pow10 (map lm (seq 0 lenM))).
  assert (L : List.length M = 5%nat) by (unfold M; rewrite !map_length, seq_length; reflexivity). rewrite L.
  set (bc := fun i j => bind (beta_final (phh (1 / 100)) (plin (1 / 100)) quad ks kmax (nth i M 0) (nth j M 0)) (fun f => Ok (fun ik => f (nth ik ks 0)))).
  rewrite (outer_ext _ bc) by (intros i j; unfold bc; rewrite lb_pair_class; [reflexivity|exact F|exact mask_grid]).
  pose proof (loops_agree bc 5 (fun _ _ _ => 0)) as H.
  destruct (outer bc 5 (seq 0 5) _) as [u|], (lb_outer bc 5 (seq 0 5) _) as [u'|]; cbn [agree bind] in *; try easy.
  intros x y w. unfold rgi_nearest.
  rewrite H; [reflexivity|apply (nearest_lt lenM lm x); unfold lenM; lia|apply (nearest_lt lenM lm y); unfold lenM; lia].
Qed.

(** ** The table *)
Lemma fancy_set_val {A} (val : nat -> nat -> nat -> A) : forall (l : list (nat * (nat * nat))) t i j k,
  In (i, (j, k)) l \/ t i j k = val i j k ->
  fancy_set t l (map (fun v => val (fst v) (fst (snd v)) (snd (snd v))) l) i j k = val i j k.
Proof.
  intro l. unfold fancy_set. induction l as [|(i0 & j0 & k0) l IH]; intros t i j k H; cbn [map combine fold_left].
  - destruct H as [[]|H]. exact H.
  - apply IH. cbn [In] in H. unfold set3. cbn [fst snd].
    destruct (Nat.eqb_spec k k0) as [->|Nk]; destruct (Nat.eqb_spec i i0) as [->|Ni]; destruct (Nat.eqb_spec j j0) as [->|Nj];
      cbn [andb]; try (right; reflexivity);
      (destruct H as [[E|H]|H]; [inversion E; congruence|left; exact H|right; exact H]).
Qed.
Lemma meshgrid_map {A B} (g h : A -> B) xs ys zs :
  meshgrid3 (map g xs) (map g ys) (map h zs) = map (fun v => (g (fst v), (g (fst (snd v)), h (snd (snd v))))) (meshgrid3 xs ys zs).
Proof.
  unfold meshgrid3. induction ys as [|y ys IH]; [reflexivity|]. cbn [map flat_map]. rewrite map_app, <- IH. f_equal.
  clear IH ys. induction xs as [|x xs IH]; [reflexivity|]. cbn [map flat_map]. rewrite map_app, <- IH. f_equal. now rewrite !map_map.
Qed.
Lemma meshgrid_in {A} (xs ys zs : list A) x y z : In x xs -> In y ys -> In z zs -> In (x, (y, z)) (meshgrid3 xs ys zs).
Proof.
  intros Hx Hy Hz. unfold meshgrid3. apply in_flat_map. exists y. split; [exact Hy|]. apply in_flat_map. exists x. split; [exact Hx|].
  apply in_map_iff. eauto.
Qed.
Lemma lb_table_entry f mass ks i j k : (i < List.length mass)%nat -> (j < List.length mass)%nat -> (k < List.length ks)%nat ->
  lb_table f mass ks i j k = f (log10 (nth i mass 0)) (log10 (nth j mass 0)) (log10 (nth k ks 0)).
Proof.
  intros Hi Hj Hk. unfold lb_table.
  assert (X : map log10 mass = map (fun i => log10 (nth i mass 0)) (seq 0 (List.length mass))).
  { rewrite (map_nth_seq 0 mass) at 1. now rewrite map_map. }
  assert (Z : map log10 ks = map (fun i => log10 (nth i ks 0)) (seq 0 (List.length ks))).
  { rewrite (map_nth_seq 0 ks) at 1. now rewrite map_map. }
  rewrite X, Z, meshgrid_map, map_map. cbn [fst snd].
  apply (fancy_set_val (fun i j k => f (log10 (nth i mass 0)) (log10 (nth j mass 0)) (log10 (nth k ks 0)))).
  left. apply meshgrid_in; apply in_seq; lia.
Qed.

(** ** One computation *)
Lemma fresh_class E mass kv b v : least_squares (em_fit E) -> lb_vector b = Ok v -> lbc_vector E b = Ok v ->
  agree transposed (lb_fresh E mass kv b) (lbc_fresh E mass kv b).
Proof.
  intros F V V'. unfold lb_fresh, lbc_fresh. rewrite V, V'. cbn [bind]. unfold bnl.
  pose proof (interpolation_class (em_phh E v) (em_plin E v) (em_quadratic E) (em_fit E) (em_Om E v) F) as I.
  destruct (lb_interpolation _ _ _ _ _) as [f|], (build_interp _ _ _ _ _) as [g|]; cbn [agree bind] in *; try easy.
  exists (List.length mass), (List.length kv). eexists. eexists. split; [reflexivity|]. split; [reflexivity|].
  cbn beta. intros i j k Hi Hj Hk. cbn [nth]. rewrite lb_table_entry, bnl_table_entry by assumption. apply I.
Qed.
Lemma fresh_entry E mass kv b t : least_squares (em_fit E) -> lb_fresh E mass kv b = Ok t ->
  exists v g f, lb_vector b = Ok v /\ build_interp (em_phh E v) (em_plin E v) (em_quadratic E) (em_Om E v) (1 / 100) = Ok g /\
    t = NdFour 1 (List.length mass) (List.length mass) (List.length kv) f /\
    forall i j k, (i < List.length mass)%nat -> (j < List.length mass)%nat -> (k < List.length kv)%nat ->
      f 0%nat i j k = g (log10 (nth i mass 0)) (log10 (nth j mass 0)) (log10 (nth k kv 0)) /\ f 0%nat i j k = f 0%nat j i k.
Proof.
  intros F. unfold lb_fresh. destruct (lb_vector b) as [v|]; cbn [bind]; [|discriminate].
  pose proof (interpolation_class (em_phh E v) (em_plin E v) (em_quadratic E) (em_fit E) (em_Om E v) F) as I.
  destruct (lb_interpolation _ _ _ _ _) as [f|]; cbn [bind]; [|discriminate].
  destruct (build_interp _ _ _ _ _) as [g|] eqn:B; cbn [agree] in I; [|easy].
  intro H. injection H as <-. exists v, g. eexists. split; [reflexivity|]. split; [exact B|]. split; [reflexivity|].
  cbn beta. intros i j k Hi Hj Hk. rewrite !lb_table_entry by assumption. rewrite !I. split; [reflexivity|]. apply (build_sym _ _ _ _ _ _ B).
Qed.
