(** Properties of the beyond-linear bias (C40-C42, C66, C67). *)
From Coq Require Import ZArith Sorted.
From Verif Require Import Base Quad Interp Spec BaseFacts BnlModel BnlSpec BnlFacts BnlFacts2.
Open Scope string_scope.
Open Scope R_scope.

(** * C40 *)

(** Clamping: always in the box, unchanged when inside, idempotent, monotone per entry; a
    vector of another length is rejected. *)
Theorem C40_clamped :
  (forall v, List.length v = 6%nat ->
     exists out, test_cosmo v = Ok out /\ in_box out /\ test_cosmo out = Ok out /\ (in_box v -> out = v)) /\
  (forall v w a b, test_cosmo v = Ok a -> test_cosmo w = Ok b ->
     forall i, nth i v 0 <= nth i w 0 -> nth i a 0 <= nth i b 0) /\
  (forall v, List.length v <> 6%nat -> test_cosmo v = Err "ValueError").
Proof. exact (conj test_cosmo_ok (conj test_cosmo_mono test_cosmo_len)). Qed.
Print Assumptions C40_clamped.

(** Every vector handed to the emulator lies in the box; it is handed one exactly when A_s or
    sigma_8 is given; A_s takes precedence, whatever sigma_8 is. *)
Theorem C40_emulator :
  forall s8 c,
    (forall vs v, emulator s8 c = Ok vs -> In v vs -> in_box v) /\
    ((exists vs, emulator s8 c = Ok vs) <-> (b_As c <> None \/ b_sigma8 c <> None)) /\
    (b_As c = None -> b_sigma8 c = None -> emulator s8 c = Err "ValueError") /\
    (forall A, b_As c = Some A -> in_box (cparam c (ln (A * 10 ^ 10))) ->
       emulator s8 c = Ok [[b_ob c * b_h0 c ^ 2; b_oc c * b_h0 c ^ 2; b_ol c - 64 / 100000;
                            ln (A * 10 ^ 10); b_ns c; b_w0 c]] \/ b_h0 c < 0).
Proof.
  exact (fun s8 c => conj (emulator_box s8 c) (conj (emulator_total s8 c) (conj (emulator_neither s8 c) (emulator_As s8 c)))).
Qed.
Print Assumptions C40_emulator.

(** Given sigma_8 only, the emulator ends at that sigma_8 whenever the amplitude it needs is
    inside the box ... *)
Theorem C40_sigma8 :
  forall sigma8 c s, sigma8_scales sigma8 -> b_As c = None -> b_sigma8 c = Some s -> 0 < s ->
    (forall d, 2.4752 <= d <= 3.7128 -> in_box (cparam c d)) ->
    exists v0 v, emulator sigma8 c = Ok [v0; v] /\
      (2.4752 <= ln (A_s_init * 10 ^ 10) + 2 * ln (s / sigma8 v0) <= 3.7128 -> sigma8 v = s).
Proof. exact emulator_sigma8. Qed.
Print Assumptions C40_sigma8.

(** ... and silently at another one otherwise. *)
Theorem C40_sigma8_refuted :
  exists sigma8 c s v0 v, sigma8_scales sigma8 /\ (forall d, 2.4752 <= d <= 3.7128 -> in_box (cparam c d)) /\
    b_As c = None /\ b_sigma8 c = Some s /\ 0 < s /\ emulator sigma8 c = Ok [v0; v] /\ sigma8 v <> s.
Proof. exact sigma8_missed. Qed.
Print Assumptions C40_sigma8_refuted.

Example C40_case : sigma8_scales s8_ref /\ in_box (cparam c_ref 3) /\ b_sigma8 c_ref = Some 100.
Proof. split; [exact s8_ref_scales|]. split; [apply c_ref_box; lra|reflexivity]. Qed.

(** * C41 *)

Theorem C41_truncations :
  (forall k kt, low_k_truncation k kt + high_k_truncation k kt = 1) /\
  (forall k kt, 0 < low_k_truncation k kt < 1 /\ 0 < high_k_truncation k kt < 1) /\
  (forall k, low_k_truncation k k = 1 / 2 /\ high_k_truncation k k = 1 / 2) /\
  (forall k k' kt, 0 < k -> k < k' ->
     low_k_truncation k kt < low_k_truncation k' kt /\ high_k_truncation k' kt < high_k_truncation k kt) /\
  (forall k kt, 0 < k -> 10 * k <= kt ->
     low_k_truncation k kt < 1 / 10000 /\ 1 - 1 / 10000 < high_k_truncation k kt).
Proof.
  exact (conj trunc_sum (conj (fun k kt => conj (logistic _) (logistic _)) (conj trunc_half (conj trunc_mono trunc_decade)))).
Qed.
Print Assumptions C41_truncations.
Example C41_case : low_k_truncation 1 1 = 1 / 2 /\ 10 * (1 / 100) <= 1.
Proof. split; [apply trunc_half|lra]. Qed.

(** * C42 *)

(** Entry (k, i, j) of a table is the interpolation function at exactly that wavenumber and
    pair of masses, for every size of the grids. *)
Theorem C42_indexing :
  forall f mass ks k i j, (k < List.length ks)%nat -> (i < List.length mass)%nat -> (j < List.length mass)%nat ->
    bnl_table f mass ks k i j = f (log10 (nth i mass 0)) (log10 (nth j mass 0)) (log10 (nth k ks 0)).
Proof. exact bnl_table_entry. Qed.
Print Assumptions C42_indexing.

(** One table per redshift, built at that redshift; or a single one built at 0.01. *)
Theorem C42_redshifts :
  forall build z_vec mass ks ts,
    (bnl build true z_vec mass ks = Ok ts <->
     exists fs, Forall2 (fun z f => build z = Ok f) z_vec fs /\ ts = map (fun f => bnl_table f mass ks) fs) /\
    (bnl build false z_vec mass ks = Ok ts <-> exists f, build (1 / 100) = Ok f /\ ts = [bnl_table f mass ks]).
Proof. exact (fun b z m k t => conj (bnl_z b z m k t) (bnl_const b z m k t)). Qed.
Print Assumptions C42_redshifts.

(** The double loop: it succeeds iff every pair i <= j does, and then entry (a, c) and entry
    (c, a) both hold the value computed for the ordered pair. *)
Theorem C42_loop :
  forall phh plin quad lM ks kmax,
    ((exists t, compute_bnl_darkquest phh plin quad lM ks kmax = Ok t) <->
     (forall i j, (i <= j)%nat -> (j < List.length lM)%nat ->
        exists f, beta_final phh plin quad ks kmax (pow10 (nth i lM 0)) (pow10 (nth j lM 0)) = Ok f)) /\
    (forall t, compute_bnl_darkquest phh plin quad lM ks kmax = Ok t ->
       forall a c, (a < List.length lM)%nat -> (c < List.length lM)%nat ->
       exists f, beta_final phh plin quad ks kmax (pow10 (nth (Nat.min a c) lM 0)) (pow10 (nth (Nat.max a c) lM 0)) = Ok f /\
         forall ik, t a c ik = f (nth ik ks 0)).
Proof.
  exact (fun phh plin quad lM ks kmax => conj (darkquest_ok phh plin quad lM ks kmax) (fun t => darkquest_entry phh plin quad lM ks kmax t)).
Qed.
Print Assumptions C42_loop.

(** The interpolation function is symmetric in the masses whatever the emulator returns, and
    its value is the one computed at the nearest nodes (in log10) of the three grids. *)
Theorem C42_lookup :
  forall phh plin quad Om z f, 0 < Om -> Om <= 15 -> build_interp phh plin quad Om z = Ok f ->
    (forall x y w, f x y w = f y x w) /\
    (forall x y w, exists a c ik g,
      (a < lenM)%nat /\ (c < lenM)%nat /\ (ik < lenk)%nat /\
      (forall i, (i < lenM)%nat -> Rabs (x - log10 (grid_M Om a)) <= Rabs (x - log10 (grid_M Om i))) /\
      (forall i, (i < lenM)%nat -> Rabs (y - log10 (grid_M Om c)) <= Rabs (y - log10 (grid_M Om i))) /\
      (forall i, (i < lenk)%nat -> Rabs (w - log10 (grid_k ik)) <= Rabs (w - log10 (grid_k i))) /\
      beta_final (phh z) (plin z) quad (map grid_k (seq 0 lenk)) (snd (minimum_halo_mass Om))
        (grid_M Om (Nat.min a c)) (grid_M Om (Nat.max a c)) = Ok g /\
      f x y w = g (grid_k ik)).
Proof.
  exact (fun phh plin quad Om z f H L B => conj (build_sym phh plin quad Om z f B) (build_entry phh plin quad Om z f H L B)).
Qed.
Print Assumptions C42_lookup.

(** One axis of the lookup: exact at the nodes, the end nodes beyond the grid. *)
Theorem C42_nearest :
  forall n x, (2 <= n)%nat -> increasing n x ->
    (forall q, (nearest n x q < n)%nat /\ forall i, (i < n)%nat -> Rabs (q - x (nearest n x q)) <= Rabs (q - x i)) /\
    (forall i, (i < n)%nat -> nearest n x (x i) = i) /\
    (forall q, q <= x 0%nat -> nearest n x q = 0%nat) /\
    (forall q, x (n - 1)%nat <= q -> nearest n x q = (n - 1)%nat).
Proof.
  exact (fun n x H I => conj (fun q => nearest_spec n x q H I) (conj (fun i => nearest_node n x i H I)
    (conj (fun q => nearest_below n x q H I) (fun q => nearest_above n x q H I)))).
Qed.
Print Assumptions C42_nearest.

(** Two wavenumbers and three masses; an interpolator that accepts anything builds a function. *)
Example C42_case :
  bnl_table (fun x y z => x + 10 * y + 100 * z) [1; 10; 100] [1; 10] 1 2 1 = 112 /\
  (exists f, build_interp (fun _ _ _ _ => 1) (fun _ _ => 1) (fun _ _ => Ok (fun k => k)) (3 / 10) 0 = Ok f).
Proof.
  split.
  - rewrite C42_indexing by (simpl; lia). cbn [nth].
    assert (L10 : log10 10 = 1) by (rewrite <- pow10_1; apply log10_pow10).
    replace 100 with (10 * 10) at 1 by lra. rewrite log10_mult, L10 by lra. lra.
  - unfold build_interp.
    destruct (proj2 (darkquest_ok (fun _ _ _ => 1) (fun _ => 1) (fun _ _ => Ok (fun k => k))
      (map (fun i => log10 (grid_M (3 / 10) i)) (seq 0 lenM)) (map grid_k (seq 0 lenk)) (snd (minimum_halo_mass (3 / 10))))) as [t E].
    + intros i j _ _. unfold beta_final. rewrite envelopes_1. cbn [bind]. eauto.
    + rewrite E. cbn [bind]. eauto.
Qed.

(** * C66 *)

(** The smoothed beta vanishes at the pivot 0.05, passes through (only) the local maxima of
    |1 + raw beta|, and carries both truncations. *)
Theorem C66_smoothing :
  forall phh plin quad ks kmax m1 m2 f, beta_final phh plin quad ks kmax m1 m2 = Ok f ->
    f (5 / 100) = 0 /\
    exists g idx,
      let data := map (fun k => Rabs (raw_beta phh plin ks m1 m2 k + 1)) ks in
      quad (map (fun i => nth i ks 0) idx) (map (fun i => nth i data 0) idx) = Ok g /\
      (forall i, In i idx <-> is_local_max data i) /\ StronglySorted lt idx /\
      forall k, f k = (g k - g (5 / 100)) * low_k_truncation k (5 / 100) * high_k_truncation k (3 * kmax).
Proof.
  exact (fun phh plin quad ks kmax m1 m2 f H => conj (beta_klin phh plin quad ks kmax m1 m2 f H)
    (beta_form phh plin quad ks kmax m1 m2 f H)).
Qed.
Print Assumptions C66_smoothing.

(** The amplitude calibration of the emulator drops out ... *)
Theorem C66_calibration :
  forall phh plin quad A c ks kmax m1 m2, 0 < A m1 -> 0 < A m2 -> 0 < c ->
    0 < phh (5 / 100) m1 m1 -> 0 < phh (5 / 100) m2 m2 -> 0 < plin (5 / 100) -> (forall k, In k ks -> 0 < plin k) ->
    beta_final (fun k a b => A a * A b * phh k a b) (fun k => c * plin k) quad ks kmax m1 m2
    = beta_final phh plin quad ks kmax m1 m2.
Proof. exact beta_scale. Qed.
Print Assumptions C66_calibration.

(** ... and for halos that are linearly biased the raw beta is minus the linear power that the
    shot-noise estimate absorbs, relative to the linear power. *)
Theorem C66_linear :
  forall bias plin ks m1 m2 k, 0 < bias m1 -> 0 < bias m2 -> 0 < plin (5 / 100) -> 0 < plin k ->
    raw_beta (fun k a b => bias a * bias b * plin k) plin ks m1 m2 k
    = - (mean (map plin (filter hk_mask ks)) / plin k).
Proof. exact raw_beta_linear. Qed.
Print Assumptions C66_linear.

(** Envelopes with unit chunks: exactly the interior local minima and maxima, in order. *)
Theorem C66_envelopes :
  forall data, exists lmin lmax, hl_envelopes_idx data 1 1 = Ok (lmin, lmax) /\
    StronglySorted lt lmin /\ StronglySorted lt lmax /\
    (forall i, In i lmin <-> is_local_min data i) /\ (forall i, In i lmax <-> is_local_max data i).
Proof.
  exact (fun data => ex_intro _ (local_min data) (ex_intro _ (local_max data)
    (conj (envelopes_1 data) (conj (local_min_sorted data) (conj (local_max_sorted data)
      (conj (local_min_iff data) (local_max_iff data))))))).
Qed.
Print Assumptions C66_envelopes.

(** General chunks: entry c is an extremum of the c-th chunk; a zero chunk size is an error. *)
Theorem C66_chunks :
  forall data d l,
    (forall out, chunks argmax data d l = Ok out ->
       (0 < d)%nat /\ List.length out = ((List.length l + d - 1) / d)%nat /\
       forall c, (c < List.length out)%nat -> exists u, (c * d <= u)%nat /\ (u < Nat.min (S c * d) (List.length l))%nat /\
         nth c out 0%nat = nth u l 0%nat /\
         forall j, (c * d <= j)%nat -> (j < Nat.min (S c * d) (List.length l))%nat ->
           nth (nth j l 0%nat) data 0 <= nth (nth c out 0%nat) data 0) /\
    (forall out, chunks argmin data d l = Ok out ->
       (0 < d)%nat /\ List.length out = ((List.length l + d - 1) / d)%nat /\
       forall c, (c < List.length out)%nat -> exists u, (c * d <= u)%nat /\ (u < Nat.min (S c * d) (List.length l))%nat /\
         nth c out 0%nat = nth u l 0%nat /\
         forall j, (c * d <= j)%nat -> (j < Nat.min (S c * d) (List.length l))%nat ->
           nth (nth c out 0%nat) data 0 <= nth (nth j l 0%nat) data 0) /\
    chunks argmin data 0 l = Err "ValueError".
Proof.
  exact (fun data d l => conj (fun out => chunks_spec argmax (fun a b => b <= a) data d l out argmax_spec)
    (conj (fun out => chunks_spec argmin Rle data d l out argmin_spec) (chunks_0 argmin data l))).
Qed.
Print Assumptions C66_chunks.

Example C66_case :
  is_local_max [0; 1; 0; 2; 2; 1; 3] 1 /\ is_local_max [0; 1; 0; 2; 2; 1; 3] 4 /\ ~ is_local_max [0; 1; 0; 2; 2; 1; 3] 6 /\
  (exists f, beta_final (fun _ _ _ => 1) (fun _ => 1) (fun _ _ => Ok (fun k => k)) [1; 2] 1 1 1 = Ok f).
Proof.
  unfold is_local_max. cbn [nth Nat.sub List.length]. repeat split; try lia; try lra.
  eexists. unfold beta_final. rewrite envelopes_1. reflexivity.
Qed.

(** * C67 *)

(** The smallest resolved halo: 200 particles' mass; its radius is that of a sphere of mean
    density with that mass; kmax is the corresponding wavenumber. *)
Theorem C67_minimum_halo :
  forall Om, 0 < Om ->
    4 / 3 * PI * rmin ^ 3 * (277536627000 * Om) = fst (minimum_halo_mass Om) /\
    snd (minimum_halo_mass Om) * rmin = 2 * PI /\ 0 < rmin /\
    fst (minimum_halo_mass Om) = (277536627000 * Om) * 1000 ^ 3 / 2048 ^ 3 * 200.
Proof. exact sphere_min. Qed.
Print Assumptions C67_minimum_halo.

(** The virial radius encloses the mass at 200 times the mean density. *)
Theorem C67_rvir :
  forall Om m, 0 < Om -> 0 < m ->
    4 / 3 * PI * bnl_rvir Om m ^ 3 * (200 * (277536627000 * Om)) = m /\ 0 < bnl_rvir Om m.
Proof. exact sphere_vir. Qed.
Print Assumptions C67_rvir.

(** The grids are increasing and span the resolved masses up to 1e14 and k from 1e-3 to 200. *)
Theorem C67_grids :
  forall Om, 0 < Om -> Om <= 15 ->
    increasing lenM (fun i => log10 (grid_M Om i)) /\ increasing lenk (fun i => log10 (grid_k i)) /\
    0 < fst (minimum_halo_mass Om) < pow10 14.
Proof. exact (fun Om H L => conj (proj1 (grids_incr Om H L)) (conj (proj2 (grids_incr Om H L)) (mass_min_bounds Om H L))). Qed.
Print Assumptions C67_grids.
Example C67_case : 0 < 3 / 10 /\ 3 / 10 <= 15 /\ 0 < bnl_rvir (3 / 10) (10 ^ 12).
Proof. split; [lra|]. split; [lra|]. apply sphere_vir; lra. Qed.
