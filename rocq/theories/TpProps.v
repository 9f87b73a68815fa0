(** The legacy likelihood front end: properties C101 to C107. *)
From Verif Require Import Base OptModel TpModel TpSpec TpFacts TpFacts2 TpFacts3 TpFacts4 TpFacts5 TpFacts6 TpFacts7 TpFacts8 TpExample TpFacts9.
From Coq Require Import ZArith Ascii List Sorting.Sorted Sorting.Permutation.
Import ListNotations.
Open Scope string_scope.

(** ** C101: cuts keep the vector, its labels and its covariance in step *)

Theorem C101_aligned : forall ops f f', wf_file f -> run_ops ops f = Ok f' -> wf_file f' /\ exists K, cut_by K f f'.
Proof. exact run_ops_cut. Qed.
Print Assumptions C101_aligned.
Theorem C101_cross : forall f f', wf_file f -> mask_cross f = Ok f' ->
  keeps (fun p _ => match p with P2 _ b1 b2 _ _ => b1 = b2 | P1 _ _ _ => True end) f f'.
Proof. exact cross_keeps. Qed.
Print Assumptions C101_cross.
Theorem C101_bad : forall bad f f', wf_file f -> mask_bad bad f = Ok f' ->
  keeps (fun p v => match p with P2 _ _ _ _ _ => v <> bad | P1 _ _ _ => True end) f f'.
Proof. exact bad_keeps. Qed.
Print Assumptions C101_bad.
Theorem C101_scales : forall cuts bins f f', wf_file f -> mask_scales cuts bins f = Ok f' ->
  keeps (fun p _ => match p with
    | P2 n b1 b2 _ x => ~ In (n, b1, b2) bins /\ forall lo hi, assoc3 (n, b1, b2) cuts = Some (lo, hi) -> lo <= x <= hi
    | P1 _ _ _ => True end) f f'.
Proof. exact scales_keeps. Qed.
Print Assumptions C101_scales.
Theorem C101_scale : forall t lo hi f f', wf_file f -> mask_scale t lo hi f = Ok f' ->
  keeps (fun p _ => match p with
    | P2 n _ _ _ x => t = "all" \/ substring_of n t -> lo < x < hi
    | P1 _ _ _ => True end) f f'.
Proof. exact scale_keeps. Qed.
Print Assumptions C101_scale.
Theorem C101_indices : forall name l f f', wf_file f -> mask_indices name l f = Ok f' ->
  wf_file f' /\
  exists pre s post, f_spectra f = (pre ++ s :: post)%list /\ sp_name s = name /\
    Forall (fun x => sp_name x <> name) (pre ++ post)%list /\ l <> [] /\
    Forall (fun z => - Z.of_nat (length (sp_val s)) <= z < Z.of_nat (length (sp_val s)))%Z l /\
    exists K, cut_by K f f' /\
      forall k, In k K <-> (k < length (points f))%nat /\
        ~ exists z j, In z l /\ names_entry (length (sp_val s)) z j /\ k = (length (flat_map sp_points pre) + j)%nat.
Proof. exact mask_indices_spec. Qed.
Print Assumptions C101_indices.
Theorem C101_choose : forall sets f f', wf_file f -> choose_data_sets sets f = Ok f' ->
  Forall (set_known f) sets /\
  keeps (fun p _ => exists d, In d sets /\ lower (point_name p) = lower d) f f'.
Proof. exact choose_keeps. Qed.
Print Assumptions C101_choose.
(** No cut but an index cut can fail on a well-formed file, and a selection only for an unknown name or an empty file. *)
Theorem C101_total : forall f, wf_file f ->
  (exists f', mask_cross f = Ok f') /\ (forall bad, exists f', mask_bad bad f = Ok f') /\
  (forall cuts bins, exists f', mask_scales cuts bins f = Ok f') /\
  (forall t lo hi, exists f', mask_scale t lo hi f = Ok f') /\
  (forall sets, Forall (set_known f) sets -> f_spectra f <> [] \/ obs_list f <> [] -> exists f', choose_data_sets sets f = Ok f').
Proof.
  intros f W. split; [exact (mask_cross_total f W) |]. split; [intro bad; exact (mask_bad_total bad f W) |].
  split; [intros c b; exact (mask_scales_total c b f W) |]. split; [intros t lo hi; exact (mask_scale_total t lo hi f W) |].
  intros sets H N. exact (choose_total sets f W H N).
Qed.
Print Assumptions C101_total.
Theorem C101_indices_total : forall name l f, wf_file f ->
  (exists f', mask_indices name l f = Ok f') <->
  l <> [] /\ exists pre s post, f_spectra f = (pre ++ s :: post)%list /\ sp_name s = name /\
    Forall (fun x => sp_name x <> name) (pre ++ post)%list /\
    Forall (fun z => - Z.of_nat (length (sp_val s)) <= z < Z.of_nat (length (sp_val s)))%Z l.
Proof. exact mask_indices_total. Qed.
Print Assumptions C101_indices_total.
(** The cut of one statistic also cuts every statistic whose name occurs inside its name. *)
Theorem C101_scale_refuted : exists t lo hi f f' p, wf_file f /\ mask_scale t lo hi f = Ok f' /\
  In p (points f) /\ point_name p <> t /\ t <> "all" /\ ~ In p (points f').
Proof. exact substring_refuted. Qed.
Print Assumptions C101_scale_refuted.
Example C101_case : wf_file (ex_file "xip" "xim") /\ length (points (ex_file "xip" "xim")) = 6%nat /\
  exists f', run_ops [OCross; OScales [] [("xip", 2%Z, 2%Z)]; OIndices "xim" [(-1)%Z]; OChoose ["XIP"; "xim"]] (ex_file "xip" "xim") = Ok f' /\
    values f' = [1; 4].
Proof.
  split; [apply ex_wf |]. split; [reflexivity |].
  assert (H : match run_ops [OCross; OScales [] [("xip", 2%Z, 2%Z)]; OIndices "xim" [(-1)%Z]; OChoose ["XIP"; "xim"]] (ex_file "xip" "xim") with
              | Ok f' => values f' = [1; 4] | Err _ => False end) by (vm_compute; reflexivity).
  destruct (run_ops _ _) as [f' |]; [exists f'; auto | contradiction].
Qed.

(** ** C102: the covariance is put in the order of the measurements by name *)

Theorem C102_blocks : forall sp nobs names lens cov m,
  length names = length lens -> NoDup names -> sum_nat lens = m_n cov ->
  get_cov_start sp nobs (new_covinfo names lens cov) = Ok m ->
  exists lens', Forall2 (fun n l => exists st, section_of names lens n st l) (names_list sp nobs) lens' /\
    m_n m = sum_nat lens' /\
    forall p q n1 n2 s1 l1 s2 l2 i j,
      nth_error (names_list sp nobs) p = Some n1 -> nth_error (names_list sp nobs) q = Some n2 ->
      section_of names lens n1 s1 l1 -> section_of names lens n2 s2 l2 -> (i < l1)%nat -> (j < l2)%nat ->
      m_at m (sum_nat (firstn p lens') + i) (sum_nat (firstn q lens') + j) = m_at cov (s1 + i) (s2 + j).
Proof. exact cov_start_spec. Qed.
Print Assumptions C102_blocks.
Theorem C102_total : forall sp nobs names lens cov,
  length names = length lens -> names <> [] -> sum_nat lens = m_n cov ->
  (forall n, In n (names_list sp nobs) -> In n names) ->
  exists m, get_cov_start sp nobs (new_covinfo names lens cov) = Ok m.
Proof. exact cov_start_total. Qed.
Print Assumptions C102_total.
Theorem C102_file : forall sp obs names lens cov f,
  length names = length lens -> NoDup names -> sum_nat lens = m_n cov ->
  Forall raw_sp sp -> Forall wf_op obs -> Forall (measured names lens) sp -> Forall (counted names lens) obs ->
  make_file sp (Some obs) (Some (new_covinfo names lens cov)) = Ok f ->
  wf_file f /\ map sp_name (f_spectra f) = map sp_name sp /\ points f = (flat_map sp_points sp ++ flat_map op_points obs)%list /\
  values f = (flat_map sp_val sp ++ flat_map (fun o => concat (op_nobs o)) obs)%list /\ f_nobs f = Some obs /\
  exists m, f_cov f = Some m /\ get_cov_start sp (Some obs) (new_covinfo names lens cov) = Ok m.
Proof. exact make_file_wf. Qed.
Print Assumptions C102_file.
Example C102_case : exists m, get_cov_start [ex_sp "xip" 1 2 3; ex_sp "xim" 4 5 6] (Some [])
    (new_covinfo ["xim"; "xip"] [3%nat; 3%nat] (mkMat 6 (fun i j => INR (10 * i + j)))) = Ok m /\
  m_n m = 6%nat /\ m_at m 0 0 = INR 33 /\ m_at m 0 5 = INR 32 /\ m_at m 4 1 = INR 14.
Proof. eexists. split; [reflexivity |]. repeat split. Qed.

(** ** C103: what the options ask for *)

Theorem C103_options : forall to_int to_float c items st, make_args to_int to_float c items = Ok st ->
  means to_int to_float c items (fst st) (snd st).
Proof. exact make_means. Qed.
Print Assumptions C103_options.
Theorem C103_ignored : forall to_int to_float c pre kv post, fst kv <> "use_stats" -> fst kv <> "cut_cross" ->
  contains "cut_pair" (fst kv) = false -> contains "cut_bin" (fst kv) = false ->
  (contains "keep_ang" (fst kv) = true -> length (split_on "_"%char (fst kv)) = 4%nat) ->
  make_args to_int to_float c (pre ++ kv :: post)%list = make_args to_int to_float c (pre ++ post)%list.
Proof. exact ignored. Qed.
Print Assumptions C103_ignored.
(** Without index cuts, the data vector and covariance are the entries whose labels pass. *)
Theorem C103_points : forall to_int to_float inv c items f s lc, wf_file f -> setup to_int to_float inv c items f = Ok s ->
  a_bins (o_args s) = [] -> mapr (custom_tag c) (o_stats s) = Ok lc ->
  exists K, StronglySorted lt K /\ picks K (values f) (o_data s) /\ m_n (o_cov s) = length K /\
    (forall m i j a b, f_cov f = Some m -> nth_error K i = Some a -> nth_error K j = Some b -> m_at (o_cov s) i j = m_at m a b) /\
    forall k p, nth_error (points f) k = Some p ->
      (In k K <-> passes (o_args s) p /\ exists d, In d lc /\ lower (point_name p) = lower d).
Proof. exact setup_points. Qed.
Print Assumptions C103_points.
Theorem C103_no_stats : forall to_int to_float inv c items f s, nowhere (fun k => k = "use_stats") items ->
  setup to_int to_float inv c items f <> Ok s.
Proof. exact no_stats. Qed.
Print Assumptions C103_no_stats.
(** [cut_cross = False] cuts; a keep_ang key of four words is dropped silently; psi_gm and psi_gg cannot be cut by pair or index. *)
Theorem C103_false_refuted : exists st, make_args ex_int ex_float default_ext [("cut_cross", "False")] = Ok st /\ a_cross (snd st) = true.
Proof. exact cross_false. Qed.
Print Assumptions C103_false_refuted.
Theorem C103_four_words_refuted : forall to_int to_float c pre post value,
  make_args to_int to_float c (pre ++ ("keep_ang_psi_gm", value) :: post)%list = make_args to_int to_float c (pre ++ post)%list /\
  make_args to_int to_float c (pre ++ ("keep_ang_xip_1", value) :: post)%list = make_args to_int to_float c (pre ++ post)%list.
Proof. exact four_words. Qed.
Print Assumptions C103_four_words_refuted.
Theorem C103_psi_refuted : forall to_int to_float value,
  make_args to_int to_float default_ext [("cut_pair_psi_gm", value)] = Err "KeyError" /\
  make_args to_int to_float default_ext [("cut_bin_psi_gg", value)] = Err "KeyError".
Proof. exact psi_pair. Qed.
Print Assumptions C103_psi_refuted.
Example C103_case : make_args ex_int ex_float default_ext ex_items3 =
    Ok (Some ["xip"; "xim"], mkArgs true [] [] [(("xip", 1%Z, 1%Z), (5, 20))] [("xim", (5, 20))]) /\
  exists s, setup ex_int ex_float same_mat default_ext [("use_stats", "xim"); ("cut_cross", "yes")] (ex_file "xip" "xim") = Ok s /\
    a_bins (o_args s) = [] /\ o_data s = [4; 6].
Proof. split; [exact ex_parse |]. eexists. split; [reflexivity |]. split; reflexivity. Qed.

(** ** C104: theory and data compare entry by entry *)

Theorem C104_aligned : forall to_int to_float inv c items f s b sec ext g t lc,
  wf_file f -> setup to_int to_float inv c items f = Ok s -> theory_vector b sec ext s = Ok t ->
  theory_file b sec ext (o_stats s) = Ok g -> wf_file g ->
  mapr (custom_tag c) (o_stats s) = Ok lc -> points g = filter (chosen_b lc) (points f) ->
  exists pts Kd Kt, StronglySorted lt Kd /\ StronglySorted lt Kt /\
    picks Kd (points f) pts /\ picks Kd (values f) (o_data s) /\
    picks Kt (points g) pts /\ picks Kt (values g) t /\
    m_n (o_cov s) = length pts /\
    forall m i j a b, f_cov f = Some m -> nth_error Kd i = Some a -> nth_error Kd j = Some b -> m_at (o_cov s) i j = m_at m a b.
Proof. exact theory_aligned. Qed.
Print Assumptions C104_aligned.
(** An index cut of a statistic that is not compared makes every evaluation fail. *)
Theorem C104_unused : forall b sec ext s g n l, theory_file b sec ext (o_stats s) = Ok g -> wf_file g ->
  In (n, l) (a_bins (o_args s)) -> ~ In n (map sp_name (f_spectra g)) -> forall t, theory_vector b sec ext s <> Ok t.
Proof. exact bins_unused. Qed.
Print Assumptions C104_unused.
(** A file that lists xim before xip is compared crosswise: same labels and same
    numbers in data and theory, yet the two vectors differ. *)
Theorem C104_order_refuted : exists f b items s g t, wf_file f /\
  setup ex_int ex_float same_mat default_ext items f = Ok s /\
  theory_file b default_sec default_ext (o_stats s) = Ok g /\ theory_vector b default_sec default_ext s = Ok t /\
  Permutation (combine (points f) (values f)) (combine (points g) (values g)) /\ length t = length (o_data s) /\ t <> o_data s.
Proof. exact order_refuted. Qed.
Print Assumptions C104_order_refuted.
(** Upper case in use_stats selects the data but not the theory. *)
Theorem C104_case_refuted : exists s t, setup ex_int ex_float same_mat default_ext [("use_stats", "XIP xim")] (ex_file "xip" "xim") = Ok s /\
  o_data s = [1; 2; 3; 4; 5; 6] /\ theory_vector ex_block default_sec default_ext s = Ok t /\ length t = 3%nat /\
  chi2 (o_data s) t (o_inv s) = Err "ValueError".
Proof. exact case_refuted. Qed.
Print Assumptions C104_case_refuted.
Example C104_case : exists s g t, setup ex_int ex_float same_mat default_ext ex_items (ex_file "xip" "xim") = Ok s /\
  theory_file ex_block default_sec default_ext (o_stats s) = Ok g /\ wf_file g /\
  mapr (custom_tag default_ext) (o_stats s) = Ok ["xip"; "xim"] /\
  points g = filter (chosen_b ["xip"; "xim"]) (points (ex_file "xip" "xim")) /\
  theory_vector ex_block default_sec default_ext s = Ok t /\ t = o_data s.
Proof.
  destruct ex_setup as (s & Es & Ed & Est & Ea). destruct ex_theory_file as (g & Eg & W & P).
  exists s, g, [1 + 0; 2 + 0; 1 + 3; 3 + 3]. split; [exact Es |]. rewrite Est. split; [exact Eg |]. split; [exact W |]. split; [reflexivity |].
  split; [exact P |]. split; [now apply ex_theory |]. rewrite Ed. repeat f_equal; lra.
Qed.
Example C104_unused_case : exists s, setup ex_int ex_float same_mat default_ext [("use_stats", "xip"); ("cut_bin_gammat", "1")] (ex_file "xip" "gammat") = Ok s /\
  theory_vector ex_block default_sec default_ext s = Err "ValueError".
Proof. exact unused_case. Qed.

(** ** C105: what the theory takes from the data block *)

Theorem C105_lensing : forall b sec ext kind nl ns ang,
  b_section b sec = true -> angles b sec kind = Ok ang -> ggl_bins b sec nl ns -> (0 < nl)%nat ->
  (forall i j, (i < nl)%nat -> (j < ns i)%nat -> length (block_val b sec (bin_name (S i) (S j))) = length ang) ->
  exists s, theory_spectrum b (sec, ext, kind, true) = Ok s /\ raw_sp s /\ sp_name s = ext /\
    sp_points s = flat_map (fun i => flat_map (pair_points ext ang i) (seq 0 (ns i))) (seq 0 nl) /\
    sp_val s = flat_map (fun i => flat_map (fun j => block_val b sec (bin_name (S i) (S j))) (seq 0 (ns i))) (seq 0 nl).
Proof. exact lens_spectrum. Qed.
Print Assumptions C105_lensing.
Theorem C105_pairs : forall b sec ext kind n m ang,
  b_section b sec = true -> angles b sec kind = Ok ang -> auto_pairs b sec n m -> (0 < n)%nat ->
  (forall i j, (i < n)%nat -> (i <= j < i + m i)%nat -> length (block_val b sec (bin_name (S j) (S i))) = length ang) ->
  exists s, theory_spectrum b (sec, ext, kind, false) = Ok s /\ raw_sp s /\ sp_name s = ext /\
    sp_points s = flat_map (fun i => flat_map (pair_points ext ang i) (seq i (m i))) (seq 0 n) /\
    sp_val s = flat_map (fun i => flat_map (fun j => block_val b sec (bin_name (S j) (S i))) (seq i (m i))) (seq 0 n).
Proof. exact pair_spectrum. Qed.
Print Assumptions C105_pairs.
Theorem C105_order : forall b sec ext stats g, theory_file b sec ext stats = Ok g ->
  Forall2 (fun line s => theory_spectrum b line = Ok s)
    (filter (fun line => mem (snd (fst (fst line))) stats)
       [ (x_w sec, x_w ext, Named "theta", false); (x_gt sec, x_gt ext, Named "theta", true);
         (x_xip sec, x_xip ext, Named "theta", false); (x_xim sec, x_xim ext, Named "theta", false);
         (x_nn sec, x_nn ext, Ell, false); (x_ne sec, x_ne ext, Ell, true); (x_ee sec, x_ee ext, Ell, false);
         (x_gg sec, x_gg ext, Named "index_bin_1_1", false); (x_gm sec, x_gm ext, Named "index_bin_1_1", true);
         (x_en sec, x_en ext, Named "n", false) ]) (f_spectra g) /\
  theory_onept b sec ext stats = Ok (f_nobs g) /\ f_cov g = None.
Proof. exact theory_file_inv. Qed.
Print Assumptions C105_order.
Theorem C105_no_bins : forall b sec ext kind ggl ang, b_section b sec = true -> angles b sec kind = Ok ang ->
  has_value b sec (bin_name 1 1) = false -> theory_spectrum b (sec, ext, kind, ggl) = Err "ValueError".
Proof. exact no_bins. Qed.
Print Assumptions C105_no_bins.
Theorem C105_band : forall l u, 0 < l -> 0 < u -> pow10 (1 / 2 * (log10 l + log10 u)) = sqrt (l * u).
Proof. exact band_centre. Qed.
Print Assumptions C105_band.
Example C105_case : auto_pairs ex_block "shear_xi_plus" 2 (fun i => 2 - i)%nat /\ angles ex_block "shear_xi_plus" (Named "theta") = Ok [10].
Proof.
  split; [| reflexivity]. split; [split; [intros [| [| k]] H; [reflexivity | reflexivity | lia] | reflexivity] |]. split; [lia |].
  intros [| [| k]] H; [| | lia]; (split; [split |]); try reflexivity; try (cbn; lia).
  - intros [| [| d]] Hd; [reflexivity | reflexivity | cbn in Hd; lia].
  - intros [| d] Hd; [reflexivity | cbn in Hd; lia].
Qed.
Example C105_lens_case : ggl_bins ex_block "shear_xi_plus" 2 (fun i => S i).
Proof.
  split; [split; [intros [| [| k]] H; [reflexivity | reflexivity | lia] | reflexivity] |]. split; [lia |].
  intros [| [| k]] H; [| | lia]; (split; [split |]); try reflexivity; try lia.
  - intros [| d] Hd; [reflexivity | lia].
  - intros [| [| d]] Hd; [reflexivity | reflexivity | lia].
Qed.

(** ** C106: the Gaussian likelihood of the cut vectors *)

Theorem C106_formula : forall d t i, length d = length t -> length d = m_n i ->
  ln_like d t i = Ok (- (1 / 2) * sumR (length d) (fun a => sumR (length d) (fun b =>
    (nth a d 0 - nth a t 0) * m_at i a b * (nth b d 0 - nth b t 0)))).
Proof. exact ln_like_eq. Qed.
Print Assumptions C106_formula.
Theorem C106_best : forall to_int to_float inv c items f s m t, wf_file f -> setup to_int to_float inv c items f = Ok s ->
  f_cov f = Some m -> pos_def m -> inverse_of (o_cov s) (o_inv s) -> length t = length (o_data s) ->
  exists x, ln_like (o_data s) t (o_inv s) = Ok x /\ x <= 0 /\ (x = 0 <-> t = o_data s).
Proof. exact likelihood. Qed.
Print Assumptions C106_best.
(** Any selection of a positive definite covariance is positive definite. *)
Theorem C106_covariance : forall to_int to_float inv c items f s m, wf_file f -> setup to_int to_float inv c items f = Ok s ->
  f_cov f = Some m -> pos_def m -> m_n (o_cov s) = length (o_data s) /\ pos_def (o_cov s).
Proof. exact setup_pos_def. Qed.
Print Assumptions C106_covariance.
Theorem C106_mismatch : forall d t i, length d <> length t -> length d <> 1%nat -> length t <> 1%nat -> ln_like d t i = Err "ValueError".
Proof. exact ln_like_bad. Qed.
Print Assumptions C106_mismatch.
(** A theory vector of one entry is compared with every data point instead of being refused. *)
Theorem C106_broadcast_refuted : forall d t i, length d = m_n i ->
  ln_like d [t] i = ln_like d (repeat t (length d)) i.
Proof. exact ln_like_broadcast. Qed.
Print Assumptions C106_broadcast_refuted.
Example C106_case : exists s m, setup ex_int ex_float same_mat default_ext ex_items (ex_file "xip" "xim") = Ok s /\
  f_cov (ex_file "xip" "xim") = Some m /\ pos_def m /\ inverse_of (o_cov s) (o_inv s) /\ length (o_data s) = 4%nat.
Proof.
  destruct ex_setup as (s & Es & Ed & _). exists s, (unit_mat 6). split; [exact Es |]. split; [reflexivity |].
  split; [apply unit_pos |]. split; [exact (unit_setup _ _ _ _ _ _ 6 (ex_wf _ _) Es eq_refl) | now rewrite Ed].
Qed.

(** ** C107: writing a mock vector back into the file *)

Theorem C107_replace : forall f v f', wf_file f ->
  (obs_list f = [] \/ exists o b, obs_list f = [o] /\ op_nobs o = [b]) -> (f_spectra f <> [] \/ obs_list f <> []) ->
  replace_mean_vector v f = Ok f' ->
  length v = length (values f) /\ wf_file f' /\ points f' = points f /\ f_cov f' = f_cov f /\ mean_vector f' = Ok v.
Proof. exact replace_ok. Qed.
Print Assumptions C107_replace.
(** With two bins of one-point data the file is left ragged; with two one-point measurements it fails. *)
Theorem C107_bins_refuted : exists f v f', wf_file f /\ length v = length (values f) /\ replace_mean_vector v f = Ok f' /\
  mean_vector f' = Err "ValueError".
Proof. exact mock_refuted. Qed.
Print Assumptions C107_bins_refuted.
Theorem C107_files_refuted : exists f v, wf_file f /\ length v = length (values f) /\ replace_mean_vector v f = Err "IndexError".
Proof. exact mock_refuted2. Qed.
Print Assumptions C107_files_refuted.
Example C107_case : wf_file (mock_file [[7; 8]]) /\
  exists f', replace_mean_vector [10; 20; 30; 40; 50] (mock_file [[7; 8]]) = Ok f' /\ mean_vector f' = Ok [10; 20; 30; 40; 50].
Proof.
  split; [apply mock_wf; intros x y [<- | []] [<- | []]; reflexivity |]. eexists. split; [reflexivity |]. reflexivity.
Qed.
