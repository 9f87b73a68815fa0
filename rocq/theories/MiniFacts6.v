(** The likelihood of mini_2pt_like.py: file order, setup, positivity, units. *)
From Coq Require Import ZArith Ascii NArith.
From Verif Require Import Base Spec BaseFacts Interp InterpFacts QuadFacts FftModel PipeModel OptModel TpModel TpSpec TpFacts TpFacts6 ChainModel ChainFacts
  PredSpec PredFacts2 MiniModel MiniSpec MiniFacts MiniFacts2 MiniFacts3 MiniFacts4 MiniFacts5.
From Coq Require Import List Permutation.
Open Scope R_scope.

(** ** Name order *)
Lemma leb_nil s : String.leb "" s = true.
Proof. destruct s; reflexivity. Qed.
Lemma leb_cons a s b t : String.leb (String a s) (String b t) = true <-> (N_of_ascii a < N_of_ascii b)%N \/ (a = b /\ String.leb s t = true).
Proof.
  unfold String.leb. cbn [String.compare]. unfold Ascii.compare. destruct (N.compare_spec (N_of_ascii a) (N_of_ascii b)) as [E|E|E].
  - assert (a = b) by (rewrite <- (ascii_N_embedding a), <- (ascii_N_embedding b); congruence). subst b. split; [intro H; right; now split|]. intros [H|[_ H]]; [lia|exact H].
  - split; [now left|reflexivity].
  - split; [discriminate|]. intros [H|[-> _]]; lia.
Qed.
Lemma leb_trans : forall a b c, String.leb a b = true -> String.leb b c = true -> String.leb a c = true.
Proof.
  induction a as [|x a IH]; intros b c H1 H2; [apply leb_nil|]. destruct b as [|y b]; [discriminate|]. destruct c as [|z c]; [discriminate|].
  rewrite leb_cons in *. destruct H1 as [H1|[-> H1]]; destruct H2 as [H2|[-> H2]].
  - left. lia.
  - now left.
  - now left.
  - right. split; [reflexivity|]. now apply (IH b).
Qed.
Lemma order_cons s l : in_name_order l -> (forall t, In t l -> String.leb s t = true) -> in_name_order (s :: l).
Proof.
  intros H A [|i] [|j] [I J]; cbn in J; try lia; cbn [nth]; [apply A; apply nth_In; lia|]. apply H. lia.
Qed.
Lemma order_tail s l : in_name_order (s :: l) -> in_name_order l /\ forall t, In t l -> String.leb s t = true.
Proof.
  intro H. split; [intros i j I; apply (H (S i) (S j)); cbn; lia|]. intros t I. apply (In_nth _ _ ""%string) in I as (k & Hk & <-). apply (H 0%nat (S k)). cbn. lia.
Qed.
Lemma insert_perm s l : Permutation (insert s l) (s :: l).
Proof. induction l as [|t l IH]; [reflexivity|]. cbn. destruct (String.leb s t); [reflexivity|]. rewrite IH. apply perm_swap. Qed.
Lemma insert_order s l : in_name_order l -> in_name_order (insert s l).
Proof.
  induction l as [|t l IH]; intro H; cbn; [apply order_cons; [exact H|intros t []]|]. destruct (String.leb s t) eqn:E.
  - apply order_cons; [exact H|]. intros u [<-|I]; [exact E|]. apply order_tail in H as [_ H]. apply (leb_trans s t u E). now apply H.
  - apply order_tail in H as [H A]. apply order_cons; [now apply IH|]. intros u I. apply (Permutation_in u (insert_perm s l)) in I as [<-|I]; [|now apply A].
    destruct (String.leb_total s t); congruence.
Qed.
Lemma sorted_spec l : Permutation (sorted_names l) l /\ in_name_order (sorted_names l).
Proof.
  unfold sorted_names. induction l as [|s l [P O]]; [split; [reflexivity|]; intros i j H; cbn in H; lia|]. cbn [fold_right]. split; [rewrite insert_perm; now constructor|now apply insert_order].
Qed.

(** ** setup *)
Section Set_.
  Variables (missing wrong : string) (o : options) (glob : string -> list string) (column : string -> Z -> res (list R)) (cols : res (list Z))
    (loadtxt : string -> res mat) (inv : mat -> option mat).
  Notation setup := (mini_setup missing wrong o glob column cols loadtxt inv).
  Lemma points_ok files cs xy : load_points glob column files cs = Ok xy -> exists names, Permutation names (glob files) /\ in_name_order names /\
    List.length cs <> 3%nat /\ List.length (fst xy) = List.length names /\ List.length (snd xy) = List.length names /\
    forall k, (k < List.length names)%nat -> exists c0 c1, nth_error cs 0 = Some c0 /\ nth_error cs 1 = Some c1 /\
      column (nth k names ""%string) c0 = Ok (nth k (fst xy) []) /\ column (nth k names ""%string) c1 = Ok (nth k (snd xy) []).
  Proof.
    unfold load_points. intro H. apply bind_ok in H as (ps & Hps & H). destruct (Nat.eqb_spec (List.length cs) 3); [discriminate|]. injection H as <-. cbn [fst snd].
    exists (sorted_names (glob files)). destruct (sorted_spec (glob files)) as [P O]. split; [exact P|]. split; [exact O|]. split; [assumption|].
    apply mapr_ok in Hps. pose proof (forall2_len _ _ _ Hps) as L. rewrite !map_length. split; [now symmetry|]. split; [now symmetry|].
    intros k Hk. assert (Q : forall l l', Forall2 (fun f p => bind (item 0 cs) (fun c0 => bind (column f c0) (fun x => bind (item 1 cs) (fun c1 => bind (column f c1) (fun y => Ok (x, y))))) = Ok p) l l' ->
      forall j, (j < List.length l)%nat -> exists c0 c1, nth_error cs 0 = Some c0 /\ nth_error cs 1 = Some c1 /\
      column (nth j l ""%string) c0 = Ok (fst (nth j l' ([], []))) /\ column (nth j l ""%string) c1 = Ok (snd (nth j l' ([], [])))).
    { induction 1 as [|f p l l' E F IH]; intros j Hj; cbn in Hj; [lia|]. destruct j as [|j]; [|apply IH; lia]. cbn [nth].
      apply bind_ok in E as (c0 & H0 & E). apply bind_ok in E as (x & Hx & E). apply bind_ok in E as (c1 & H1 & E). apply bind_ok in E as (y & Hy & E). injection E as <-.
      unfold item in H0, H1. destruct (nth_error cs 0); [|discriminate]. destruct (nth_error cs 1); [|discriminate]. injection H0 as ->. injection H1 as ->. exists c0, c1. now repeat split. }
    destruct (Q _ _ Hps k Hk) as (c0 & c1 & A & B & C & D). exists c0, c1. split; [exact A|]. split; [exact B|].
    rewrite (nth_map_lt fst ps ([], [])) by lia. rewrite (nth_map_lt snd ps ([], [])) by lia. now split.
  Qed.
  Lemma setup_inv c : setup = Ok c -> exists secs data cov m i cs,
    get_string missing wrong o "input_section_names" None = Ok secs /\ get_string missing wrong o "data" None = Ok data /\
    get_string missing wrong o "covariance" None = Ok cov /\ cols = Ok cs /\ load_points glob column data cs = Ok (m_x c, m_y c) /\
    loadtxt cov = Ok m /\ inv m = Some i /\ m_inv c = i /\ m_sections c = words secs /\
    get_string missing wrong o "unit" None = Ok (m_unit c) /\ get_string missing wrong o "binning_mode" (Some "interpolate"%string) = Ok (m_mode c) /\
    get_string missing wrong o "like_name" None = Ok (m_like c) /\ get_bool missing wrong o "keep_theory_vector" (Some false) = Ok (m_keep c) /\
    (m_mode c = "integrate"%string -> m_edge c = map edges_of (m_x c)).
  Proof.
    unfold mini_setup. intro H. apply bind_ok in H as (secs & H1 & H). apply bind_ok in H as (data & H2 & H). apply bind_ok in H as (cov & H3 & H).
    apply bind_ok in H as (cs & H4 & H). apply bind_ok in H as (unit & H5 & H). apply bind_ok in H as (xy & H6 & H). apply bind_ok in H as (m & H7 & H).
    apply bind_ok in H as (i & H8 & H). apply bind_ok in H as (mode & H9 & H). apply bind_ok in H as (like & H10 & H). apply bind_ok in H as (keep & H11 & H). injection H as <-.
    exists secs, data, cov, m, i, cs. cbn [m_x m_y m_inv m_sections m_unit m_mode m_like m_keep m_edge]. unfold invert in H8. destruct (inv m) eqn:E; [|discriminate]. injection H8 as ->.
    rewrite <- surjective_pairing. repeat split; try assumption. intros ->. reflexivity.
  Qed.
  (** Three columns and a covariance that cannot be inverted end in the same error. *)
  Lemma three_columns data cs secs cov unit : get_string missing wrong o "input_section_names" None = Ok secs -> get_string missing wrong o "data" None = Ok data ->
    get_string missing wrong o "covariance" None = Ok cov -> cols = Ok cs -> get_string missing wrong o "unit" None = Ok unit ->
    List.length cs = 3%nat -> (forall f k, In f (glob data) -> (k < 2)%nat -> exists v, column f (nth k cs 0%Z) = Ok v) -> setup = Err "NameError".
  Proof.
    intros H1 H2 H3 H4 H5 L V. unfold mini_setup. rewrite H1, H2, H3, H4, H5. cbn [bind]. unfold load_points.
    destruct cs as [|c0 [|c1 [|c2 [|? ?]]]]; try discriminate L. cbn [item nth_error].
    destruct (mapr_total (fun f => bind (item 0 [c0; c1; c2]) (fun c0 => bind (column f c0) (fun x => bind (item 1 [c0; c1; c2]) (fun c1 => bind (column f c1) (fun y => Ok (x, y)))))) (sorted_names (glob data))) as (ps & Hps).
    - intros f I. apply (Permutation_in _ (proj1 (sorted_spec _))) in I. destruct (V f 0%nat I ltac:(lia)) as (x & Hx). destruct (V f 1%nat I ltac:(lia)) as (y & Hy). cbn in Hx, Hy |- *. rewrite Hx. cbn. rewrite Hy. cbn. eexists. reflexivity.
    - cbn in Hps |- *. rewrite Hps. reflexivity.
  Qed.
  Lemma singular data cs secs cov unit xy m : get_string missing wrong o "input_section_names" None = Ok secs -> get_string missing wrong o "data" None = Ok data ->
    get_string missing wrong o "covariance" None = Ok cov -> cols = Ok cs -> get_string missing wrong o "unit" None = Ok unit ->
    load_points glob column data cs = Ok xy -> loadtxt cov = Ok m -> inv m = None -> setup = Err "NameError".
  Proof. intros H1 H2 H3 H4 H5 H6 H7 H8. unfold mini_setup. rewrite H1, H2, H3, H4, H5. cbn [bind]. rewrite H6. cbn [bind]. rewrite H7. cbn [bind]. unfold invert. rewrite H8. reflexivity. Qed.
End Set_.

(** ** The best theory *)
Lemma form_pos cov i d t : inverse_of cov i -> pos_def cov -> List.length d = List.length t -> List.length d = m_n cov ->
  let x := form (List.length d) (m_at i) (fun a => nth a d 0 - nth a t 0) in 0 <= x /\ (x = 0 <-> d = t).
Proof.
  intros I P L N x. destruct (chi2_pos cov i d t I P L N) as (v & E & A & B). rewrite chi2_eq in E by (destruct I; congruence). injection E as E.
  change (x = v) in E. rewrite E. now split.
Qed.

(** ** Two runs *)
Lemma all_bins_ext to1 to2 c1 c2 b (secs : list string) : (forall s j k, In s secs -> theory_bin to1 c1 b s j k = theory_bin to2 c2 b s j k) ->
  forall count, all_bins to1 c1 b secs count = all_bins to2 c2 b secs count.
Proof.
  induction secs as [|s secs IH]; intros H count; [reflexivity|]. cbn [all_bins]. destruct (block_int b s "nbin") as [n|]; [|reflexivity]. cbn [bind].
  assert (E : forall js n, section_bins to1 c1 b s js n = section_bins to2 c2 b s js n).
  { induction js as [|j js IHj]; intro m; [reflexivity|]. cbn [section_bins]. rewrite H by now left. destruct (theory_bin to2 c2 b s j m); [|reflexivity]. cbn [bind]. now rewrite IHj. }
  rewrite E. destruct (section_bins to2 c2 b s _ count); [|reflexivity]. cbn [bind]. rewrite IH; [reflexivity|]. intros s' j k I. apply H. now right.
Qed.
Lemma execute_ext to1 to2 c1 c2 b : m_sections c1 = m_sections c2 -> List.length (m_x c1) = List.length (m_x c2) -> m_inv c1 = m_inv c2 -> m_y c1 = m_y c2 ->
  m_like c1 = m_like c2 -> m_keep c1 = m_keep c2 -> (forall s j k, In s (m_sections c1) -> theory_bin to1 c1 b s j k = theory_bin to2 c2 b s j k) ->
  mini_execute to1 c1 b = mini_execute to2 c2 b.
Proof.
  intros A B C D E F G. assert (T : theory_bins to1 c1 b = theory_bins to2 c2 b).
  { unfold theory_bins. rewrite <- A, <- B. destruct (count_bins b (m_sections c1)); [|reflexivity]. cbn [bind]. destruct (negb _); [reflexivity|]. now apply all_bins_ext. }
  unfold mini_execute. rewrite T, C, D, E, F. reflexivity.
Qed.
(** Data in another unit of length. *)
Lemma units to_mpc c c' b f f' g : m_mode c = "interpolate"%string -> m_mode c' = "interpolate"%string -> m_sections c = m_sections c' -> m_inv c = m_inv c' -> m_y c = m_y c' ->
  m_like c = m_like c' -> m_keep c = m_keep c' -> (forall s, In s (m_sections c) -> of_separation s) ->
  to_mpc (m_unit c) = Some f -> to_mpc (m_unit c') = Some f' -> g * f' = f -> m_x c' = map (map (fun v => v * g)) (m_x c) ->
  mini_execute to_mpc c b = mini_execute to_mpc c' b.
Proof.
  intros M M' A C D E F S U U' G X. apply execute_ext; try assumption; [now rewrite X, map_length|]. intros s j k I.
  assert (Rs : real_space s = true) by now apply real_space_iff, S. unfold theory_bin, abscissae, item. rewrite Rs, U, U', X, M, M'. rewrite nth_error_map.
  destruct (nth_error (m_x c) k) as [x|]; [|reflexivity]. cbn [option_map bind]. rewrite map_map. destruct (array b s "rp") as [tx|]; [|reflexivity]. cbn [bind fst snd].
  destruct (array b s (bin_key (j + 1))) as [ty|]; [|reflexivity]. cbn [bind]. rewrite (map_ext (fun v => v * g * f') (fun v => v * f)) by (intro v; rewrite <- G; ring).
  unfold theory_point. destruct (negb _); reflexivity.
Qed.
(** In integrate mode the unit has no effect. *)
Lemma no_units to_mpc c b u' f f' : m_mode c = "integrate"%string -> to_mpc (m_unit c) = Some f -> to_mpc u' = Some f' ->
  mini_execute to_mpc c b = mini_execute to_mpc {| m_sections := m_sections c; m_inv := m_inv c; m_x := m_x c; m_y := m_y c; m_mode := m_mode c; m_edge := m_edge c;
     m_like := m_like c; m_keep := m_keep c; m_unit := u' |} b.
Proof.
  intros M U U'. apply execute_ext; try reflexivity. intros s j k I. unfold theory_bin, abscissae. cbn [m_x m_unit m_mode m_edge]. destruct (item k (m_x c)) as [x|]; [|reflexivity]. cbn [bind].
  destruct (real_space s); [|reflexivity]. rewrite U, U'. destruct (array b s "rp") as [tx|]; [|reflexivity]. cbn [bind fst snd]. destruct (array b s (bin_key (j + 1))) as [ty|]; [|reflexivity]. cbn [bind].
  rewrite M. unfold theory_point. destruct (negb _); reflexivity.
Qed.
(** Rows and columns beyond the data have no effect. *)
Lemma oversize to_mpc c b b' ts inv : mini_execute to_mpc c b = (b', Ok tt) -> theory_bins to_mpc c b = Ok ts -> map (@List.length R) ts = map (@List.length R) (m_y c) ->
  (List.length (List.concat (m_y c)) <= m_n inv)%nat ->
  (forall i j, (i < List.length (List.concat (m_y c)))%nat -> (j < List.length (List.concat (m_y c)))%nat -> m_at inv i j = m_at (m_inv c) i j) ->
  mini_execute to_mpc {| m_sections := m_sections c; m_inv := inv; m_x := m_x c; m_y := m_y c; m_mode := m_mode c; m_edge := m_edge c;
     m_like := m_like c; m_keep := m_keep c; m_unit := m_unit c |} b = (b', Ok tt).
Proof.
  intros H T L N E. set (c' := {| m_sections := m_sections c; m_inv := inv; m_x := m_x c; m_y := m_y c; m_mode := m_mode c; m_edge := m_edge c;
     m_like := m_like c; m_keep := m_keep c; m_unit := m_unit c |}).
  assert (T' : theory_bins to_mpc c' b = Ok ts).
  { rewrite <- T. unfold theory_bins. cbn [c' m_sections m_x]. destruct (count_bins b (m_sections c)); [|reflexivity]. cbn [bind]. destruct (negb _); [reflexivity|]. now apply all_bins_ext. }
  destruct (execute_inv _ _ _ _ H) as (ts0 & r0 & x0 & T0 & _ & _ & K & _). rewrite T in T0. injection T0 as <-.
  destruct (execute_chi _ _ _ _ H _ T L) as (x & -> & _ & X).
  destruct (residuals_run _ _ (eq_sym L)) as [r Rr]. destruct (residuals_ok _ _ _ (eq_sym L) Rr) as [Lr Vr].
  destruct (chi_run inv r) as [x' X']; [rewrite Lr, <- concat_length; exact N|]. destruct (chi_form inv r x' X') as [F _]. rewrite Lr in X'.
  assert (EX : x' = x).
  { rewrite F, X, Lr, <- concat_length. unfold form. apply sumR_ext. intros i Hi. apply sumR_ext. intros j Hj. rewrite !Vr. now rewrite E. }
  unfold mini_execute. rewrite T'. cbn [bind]. cbn [c' m_y m_inv]. rewrite Rr. cbn [bind]. rewrite X'. cbn [bind]. rewrite EX. unfold written_like. cbn [c' m_keep m_like m_y].
  destruct (m_keep c); [|reflexivity]. destruct ts; [exfalso; now apply K|reflexivity].
Qed.
