(** Lemmas about add_and_upsample.py: the resampling of one table. *)
From Coq Require Import ZArith Lia Lra.
From Verif Require Import Base Spec Interp InterpFacts FftModel RsModel OptModel ChainModel PredModel PredSpec PredFacts2 AupModel AupSpec.
Open Scope R_scope.

Definition line (x y : list R) (q : R) : R := interp_lin (List.length x) (at_ x) (at_ y) q.
Lemma line_value x y q : rising x -> line_at x y q (line x y q).
Proof.
  intros Rx. pose proof (rising_incr x Rx) as I. destruct Rx as [N _]. unfold line_at, line.
  destruct (Rle_lt_dec q (at_ x 0)) as [A|A].
  - exists 0%nat. split; [lia|]. split; [now left|]. split.
    + right. pose proof (I 0%nat ltac:(lia)). unfold at_ in *. lra.
    + rewrite interp_below by assumption. pose proof (I 0%nat ltac:(lia)). unfold at_ in *. field. lra.
  - destruct (Rlt_le_dec (at_ x (List.length x - 1)) q) as [B|B].
    + exists (List.length x - 2)%nat. split; [lia|]. split; [right|split; [left; lia|]].
      * pose proof (I (List.length x - 2)%nat ltac:(lia)) as C. replace (S (List.length x - 2)) with (List.length x - 1)%nat in C by lia. unfold at_ in *. lra.
      * rewrite interp_above by assumption. pose proof (I (List.length x - 2)%nat ltac:(lia)) as C.
        replace (S (List.length x - 2)) with (List.length x - 1)%nat in * by lia. unfold at_ in *. field. lra.
    + destruct (says_value x y q (conj N I)) as [[[O|O] _]|(j & Hj & Hq & E)]; [unfold at_ in *; lra|unfold at_ in *; lra|].
      exists j. split; [exact Hj|]. split; [right; lra|]. split; [right; lra|]. rewrite (interp_seg _ _ _ _ j) by (try exact I; try exact Hj; unfold at_; lra || lia).
      pose proof (I j Hj). unfold at_ in *. field. lra.
Qed.
Lemma line_only x y q v : rising x -> line_at x y q v -> v = line x y q.
Proof.
  intros Rx. pose proof (rising_incr x Rx) as I. destruct Rx as [N _]. unfold line. intros (j & Hj & L & U & ->).
  pose proof (I j Hj) as D. unfold at_ in D.
  destruct (Rlt_le_dec q (nth j x 0)) as [A|A].
  - destruct L as [->|L]; [|lra]. rewrite interp_below by (try assumption; unfold at_; lra). unfold at_ in *. field. lra.
  - destruct (Rlt_le_dec (nth (S j) x 0) q) as [B|B].
    + destruct U as [U|U]; [|lra]. assert (J1 : (List.length x - 1)%nat = S j) by lia. assert (J2 : (List.length x - 2)%nat = j) by lia.
      rewrite interp_above by (try assumption; unfold at_; rewrite J1; lra). rewrite J1, J2. unfold at_. field. lra.
    + rewrite (interp_seg _ _ _ _ j) by (try exact I; try exact Hj; unfold at_; lra || lia). unfold at_. field. lra.
Qed.
Lemma line_log10 k y q : rising k -> (forall x, In x k -> 0 < x) ->
  interp_lin (List.length k) (fun i => log10 (at_ k i)) y (log10 q) = interp_lin (List.length k) (fun i => ln (at_ k i)) y (ln q).
Proof.
  intros Rk P. pose proof (rising_incr k Rk) as I. destruct Rk as [N _].
  assert (T : 0 < ln ten) by (unfold ten; rewrite <- ln_1; apply ln_increasing; lra).
  assert (E : forall x y', log10 x < log10 y' <-> ln x < ln y').
  { intros x y'. unfold log10. split; intro H.
    - apply (Rmult_lt_reg_r (/ ln ten)); [apply Rinv_0_lt_compat; exact T|exact H].
    - apply Rmult_lt_compat_r; [apply Rinv_0_lt_compat; exact T|exact H]. }
  unfold interp_lin. 
  assert (S1 : forall n, searchsorted n (fun i => log10 (at_ k i)) (log10 q) = searchsorted n (fun i => ln (at_ k i)) (ln q)).
  { induction n as [|n IH]; [reflexivity|]. cbn [searchsorted]. rewrite IH. f_equal.
    destruct (Rlt_dec (log10 (at_ k n)) (log10 q)) as [A|A], (Rlt_dec (ln (at_ k n)) (ln q)) as [B|B]; try reflexivity; [apply E in A|apply E in B]; contradiction. }
  rewrite S1. set (h := clip_idx _ _).
  assert (Hh : (1 <= h < List.length k)%nat) by (unfold h, clip_idx; lia).
  assert (D : ln (at_ k (h - 1)) < ln (at_ k h)).
  { apply ln_increasing; [apply P; unfold at_; apply nth_In; lia|]. pose proof (I (h - 1)%nat ltac:(lia)) as D. now replace (S (h - 1)) with h in D by lia. }
  unfold log10. field. lra.
Qed.
Lemma rising_logs k : rising k -> (forall x, In x k -> 0 < x) -> rising (map ln k).
Proof.
  intros [N I] P. split; [now rewrite map_length|]. rewrite map_length. intros i Hi.
  rewrite !(nth_indep (map ln k) 0 (ln 0)) by (rewrite map_length; lia). rewrite !map_nth. apply ln_increasing; [apply P, nth_In; lia|now apply I].
Qed.
Lemma line_map k y q : rising k ->
  line (map ln k) y q = interp_lin (List.length k) (fun i => ln (at_ k i)) (at_ y) q.
Proof.
  intros [N _]. unfold line. rewrite map_length. apply interp_ext_x; [exact N|]. intros i Hi. unfold at_.
  rewrite (nth_indep (map ln k) 0 (ln 0)) by (rewrite map_length; lia). apply map_nth.
Qed.

(** The value of the resampled table. *)
Definition value (f : fill) (z k : list R) (P : nat -> nat -> R) (zq kq : R) : R :=
  interp1d Extrapolate (List.length k) (fun i => log10 (at_ k i))
    (fun i => interp1d f (List.length z) (at_ z) (fun j => P j i) zq) (log10 kq).
Definition mode (beyond : bool) : fill := if beyond then Extrapolate else FillValue 0.
Lemma in_z (beyond : bool) z (y : nat -> R) q n : rising z -> n = List.length z ->
  (if beyond then line_at else says) z (map y (seq 0 n)) q (interp1d (mode beyond) (List.length z) (at_ z) y q).
Proof.
  intros Rz ->. assert (E : interp1d (mode beyond) (List.length z) (at_ z) y q = interp1d (mode beyond) (List.length z) (at_ z) (at_ (map y (seq 0 (List.length z)))) q).
  { apply interp1d_ext; [apply Rz|]. intros i Hi. unfold at_. rewrite (nth_indep _ 0 (y 0%nat)) by (rewrite map_length, seq_length; exact Hi).
    rewrite (map_nth y (seq 0 (List.length z)) 0%nat i), seq_nth by exact Hi. reflexivity. }
  rewrite E. destruct beyond; [apply line_value; exact Rz|apply says_value; exact Rz].
Qed.
Lemma in_z_only (beyond : bool) z (y : nat -> R) q n v : rising z -> n = List.length z ->
  (if beyond then line_at else says) z (map y (seq 0 n)) q v -> v = interp1d (mode beyond) (List.length z) (at_ z) y q.
Proof.
  intros Rz -> H. assert (E : interp1d (mode beyond) (List.length z) (at_ z) y q = interp1d (mode beyond) (List.length z) (at_ z) (at_ (map y (seq 0 (List.length z)))) q).
  { apply interp1d_ext; [apply Rz|]. intros i Hi. unfold at_. rewrite (nth_indep _ 0 (y 0%nat)) by (rewrite map_length, seq_length; exact Hi).
    rewrite (map_nth y (seq 0 (List.length z)) 0%nat i), seq_nth by exact Hi. reflexivity. }
  rewrite E. destruct beyond; [now apply line_only|now apply says_only].
Qed.
Lemma value_resampled beyond z k P zq kq : good_axes z k -> resampled beyond z k P zq kq (value (mode beyond) z k P zq kq).
Proof.
  intros (Rz & Rk & Pk). unfold resampled, value.
  exists (map (fun i => interp1d (mode beyond) (List.length z) (at_ z) (fun j => P j i) zq) (seq 0 (List.length k))).
  split; [now rewrite map_length, seq_length|]. split.
  - intros i Hi. set (g := fun i : nat => interp1d (mode beyond) (List.length z) (at_ z) (fun j => P j i) zq). rewrite (nth_indep _ 0 (g 0%nat)) by (rewrite map_length, seq_length; exact Hi).
    rewrite (map_nth g (seq 0 (List.length k)) 0%nat i), seq_nth by exact Hi. unfold g. apply in_z; [exact Rz|reflexivity].
  - cbn [interp1d]. rewrite line_log10 by assumption. set (g := fun i : nat => interp1d (mode beyond) (List.length z) (at_ z) (fun j => P j i) zq).
    replace (interp_lin (List.length k) (fun i => ln (at_ k i)) g (ln kq)) with (line (map ln k) (map g (seq 0 (List.length k))) (ln kq)).
    { apply line_value, rising_logs; assumption. }
    rewrite line_map by exact Rk. apply interp_ext; [apply Rk|]. intros i Hi. unfold at_.
    rewrite (nth_indep _ 0 (g 0%nat)) by (rewrite map_length, seq_length; exact Hi). rewrite (map_nth g (seq 0 (List.length k)) 0%nat i), seq_nth by exact Hi. reflexivity.
Qed.
Lemma resampled_only beyond z k P zq kq v : good_axes z k -> resampled beyond z k P zq kq v -> v = value (mode beyond) z k P zq kq.
Proof.
  intros (Rz & Rk & Pk) (row & L & H & V). apply line_only in V; [|apply rising_logs; assumption]. rewrite V, line_map by exact Rk.
  unfold value. cbn [interp1d]. rewrite line_log10 by assumption. apply interp_ext; [apply Rk|]. intros i Hi. unfold at_ at 1.
  apply (in_z_only beyond z (fun j => P j i) zq (List.length z)); [exact Rz|reflexivity|]. apply H; exact Hi.
Qed.
Lemma value_ext f z k P Q zq kq : (2 <= List.length z)%nat -> (2 <= List.length k)%nat -> (forall j i, (j < List.length z)%nat -> (i < List.length k)%nat -> P j i = Q j i) ->
  value f z k P zq kq = value f z k Q zq kq.
Proof.
  intros Nz Nk H. unfold value. apply interp1d_ext; [exact Nk|]. intros i Hi. apply interp1d_ext; [exact Nz|]. intros j Hj. now apply H.
Qed.
Lemma value_scal beyond z k P c zq kq : (2 <= List.length k)%nat -> value (mode beyond) z k (fun j i => c * P j i) zq kq = c * value (mode beyond) z k P zq kq.
Proof.
  intros N. unfold value. cbn [interp1d]. rewrite <- interp_scal. apply interp_ext; [exact N|]. intros i Hi.
  destruct beyond; cbn [mode interp1d]; [apply interp_scal|]. destruct (Rlt_dec _ _); [ring|]. destruct (Rlt_dec _ _); [ring|]. apply interp_scal.
Qed.
Lemma value_plus beyond z k P Q zq kq : (2 <= List.length k)%nat ->
  value (mode beyond) z k (fun j i => P j i + Q j i) zq kq = value (mode beyond) z k P zq kq + value (mode beyond) z k Q zq kq.
Proof.
  intros N. unfold value. cbn [interp1d]. rewrite <- interp_plus. apply interp_ext; [exact N|]. intros i Hi.
  destruct beyond; cbn [mode interp1d]; [apply interp_plus|]. destruct (Rlt_dec _ _); [ring|]. destruct (Rlt_dec _ _); [ring|]. apply interp_plus.
Qed.

(** ** The tables of the model *)
Lemma nth_map {A B} (g : A -> B) l i d d' : (i < List.length l)%nat -> nth i (map g l) d' = g (nth i l d).
Proof. intros H. rewrite (nth_indep _ d' (g d)) by (rewrite map_length; exact H). apply map_nth. Qed.
Lemma resample_shape f z k p ze ke : shaped ze ke (resample f z k p ze ke).
Proof. unfold resample. split; [apply map_length|]. intros r H. apply in_map_iff in H. destruct H as (q & <- & _). apply map_length. Qed.
Lemma resample_cell f z k p ze ke j i : (j < List.length ze)%nat -> (i < List.length ke)%nat ->
  cell (resample f z k p ze ke) j i = value f z k (cell p) (nth j ze 0) (nth i ke 0).
Proof.
  intros Hj Hi. unfold cell at 1, resample. rewrite (nth_map _ ze j 0) by exact Hj. rewrite (nth_map _ ke i 0) by exact Hi. reflexivity.
Qed.
Lemma negate_shape z k p : shaped z k p -> shaped z k (negate p).
Proof. intros [A B]. split; [unfold negate; now rewrite map_length|]. intros r H. apply in_map_iff in H. destruct H as (q & <- & I). rewrite map_length. now apply B. Qed.
Lemma negate_cell p j i : cell (negate p) j i = -1 * cell p j i.
Proof.
  unfold cell, negate. destruct (lt_dec j (List.length p)) as [Hj|Hj].
  - rewrite (nth_map _ p j []) by exact Hj. destruct (lt_dec i (List.length (nth j p []))) as [Hi|Hi].
    + rewrite (nth_map _ _ i 0) by exact Hi. ring.
    + rewrite !nth_overflow by (rewrite ?map_length; lia). ring.
  - rewrite (nth_overflow (map _ p)) by (rewrite map_length; lia). rewrite (nth_overflow p) by lia. destruct i; cbn; ring.
Qed.
Lemma fits_iff z k p : fits z k p = true <-> (2 <= List.length z)%nat /\ (2 <= List.length k)%nat /\ shaped z k p.
Proof.
  unfold fits, shaped. rewrite !andb_true_iff, !Nat.leb_le, Nat.eqb_eq, forallb_forall. split.
  - intros (((A & B) & C) & D). repeat split; try assumption. intros r H. apply Nat.eqb_eq. now apply D.
  - intros (A & B & C & D). repeat split; try assumption. intros r H. apply Nat.eqb_eq. now apply D.
Qed.
(** The sign plays no part. *)
Lemma signed_cells beyond z k p ze ke t : signed_resample (mode beyond) z k p ze ke = Ok t -> shaped ze ke t /\
  forall j i, (j < List.length ze)%nat -> (i < List.length ke)%nat -> cell t j i = value (mode beyond) z k (cell p) (nth j ze 0) (nth i ke 0).
Proof.
  unfold signed_resample. destruct (fits z k p) eqn:F; [|discriminate]. apply fits_iff in F. destruct F as (Nz & Nk & _).
  destruct (Rlt_dec _ _); intro E; injection E as <-.
  - split; [apply negate_shape, resample_shape|]. intros j i Hj Hi. rewrite negate_cell, resample_cell by assumption.
    rewrite (value_ext _ z k (cell (negate p)) (fun j i => -1 * cell p j i)) by (try assumption; intros; apply negate_cell).
    rewrite value_scal by exact Nk. ring.
  - split; [apply resample_shape|]. intros j i Hj Hi. now apply resample_cell.
Qed.
Lemma signed_runs f z k p ze ke : (2 <= List.length z)%nat -> (2 <= List.length k)%nat -> shaped z k p -> exists t, signed_resample f z k p ze ke = Ok t.
Proof. intros A B C. unfold signed_resample. rewrite (proj2 (fits_iff z k p)) by (repeat split; try assumption; apply C). destruct (Rlt_dec _ _); eexists; reflexivity. Qed.
