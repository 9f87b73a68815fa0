(** From the pipeline module to the projection modules, and on to the correction for the cosmology. *)
From Coq Require Import ZArith Ascii Decimal DecimalString.
From Verif Require Import Base Spec Quad Interp BaseFacts HodModel PkModel AddModel AddSpec FftModel RsModel RsSpec RsFacts2 RsFacts3 OgataModel PipeModel PipeSpec PipeFacts PipeFacts2 PipeFacts3 PipeFacts4 PipeFacts6
  OptModel ChainModel ChainSpec ChainFacts ChainFacts2 ChainFacts3.
Open Scope string_scope.

Lemma nth_map_seq {A} (f : nat -> A) n i d : (i < n)%nat -> nth i (map f (seq 0 n)) d = f i.
Proof. intro L. rewrite (nth_indep _ d (f 0%nat)) by now rewrite map_length, seq_length. rewrite map_nth, seq_nth by exact L. reflexivity. Qed.
Lemma read_grid b n g t : holds_grid b n g "p_k" t -> exists s, read_pk b n = Some s /\ section_is s g t.
Proof.
  intros (H1 & H2 & H3). unfold read_pk. rewrite H1, H2, H3. rewrite !map_length, !seq_length, Nat.leb_refl.
  replace (forallb _ _) with true.
  - cbn [andb]. eexists. split; [reflexivity|]. unfold section_is. cbn [s_nz s_nk s_z s_k s_pk]. split; [reflexivity|]. split; [reflexivity|].
    split; [|split].
    + intros j L. unfold at_. now apply nth_map_seq.
    + intros l L. unfold at_. now apply nth_map_seq.
    + intros j l Lj Ll. rewrite nth_map_seq by exact Lj. now apply nth_map_seq.
  - symmetry. apply forallb_forall. intros row I. rewrite firstn_all2 in I by (rewrite map_length, seq_length; lia).
    apply in_map_iff in I as (i & <- & _). rewrite map_length, seq_length. apply Nat.eqb_refl.
Qed.

Section Run.
  Variable X : ext.
  Variables (c : config) (blk : block) (st st' : pst X) (lg : list write).
  Hypothesis run : execute X c blk (st, []) = ((st', lg), Ok tt).
  Hypotheses (F1 : free_section (g_hod_section c)) (F2 : free_section (g_hod_section_ia c)) (F3 : free_section (g_obs_section c)).
  Theorem sections_written : exists i o1 n1, reads X c blk st i /\ x_update X (p_power X st) (kwargs X i) = (o1, Ok tt) /\
    (galaxy c = true -> x_bins X o1 = Ok n1) /\
    (forall mode base, In (mode, base) (galaxy_kinds c) -> forall other b,
       (forall nb comp key, (nb < n1)%nat -> In (comp, key) [("1h", "p_k_1h"); ("2h", "p_k_2h"); ("tot", "p_k")] ->
          exists v, answer (request_single X blk (kwargs X i)) (fun _ => o1) mode comp = Ok v /\
            holds_grid (saved (x_grid X blk) other lg b) (bin_name base n1 nb) (x_grid X blk) key (r_val v nb)) /\
       (forall n nb, (nb < n)%nat -> (n1 <= nb)%nat \/ (n1 = 1%nat /\ n <> 1%nat) \/ (n1 <> 1%nat /\ n = 1%nat) ->
          forall k, saved (x_grid X blk) other lg b (bin_name base n nb) k = b (bin_name base n nb) k)) /\
    (alignment c = true -> exists o2 n2, x_update X o1 (x_hod X (g_ia_1 c)) = (o2, Ok tt) /\ x_bins X o2 = Ok n2 /\
     forall mode base, In (mode, base) (alignment_kinds c) -> forall other b,
       (forall nb comp key, (nb < n2)%nat -> In (comp, key) [("1h", "p_k_1h"); ("2h", "p_k_2h"); ("tot", "p_k")] ->
          exists v, answer (alignment_request X c blk i) (fun _ => o2) mode comp = Ok v /\
            holds_grid (saved (x_grid X blk) other lg b) (bin_name base n2 nb) (x_grid X blk) key (r_val v nb)) /\
       (forall n nb, (nb < n)%nat -> (n2 <= nb)%nat \/ (n2 = 1%nat /\ n <> 1%nat) \/ (n2 <> 1%nat /\ n = 1%nat) ->
          forall k, saved (x_grid X blk) other lg b (bin_name base n nb) k = b (bin_name base n nb) k)).
  Proof.
    destruct (execute_ok X c blk st st' [] lg run) as (r & (R1 & R2 & R3 & R4 & R5 & R6 & R7 & R8 & R9 & R10 & R11 & R12 & R13) & L).
    cbn [app] in L. rewrite L. exists (d_in X r), (d_o1 X r), (d_n1 X r). split; [exact R1|]. split; [exact R2|]. split.
    { intro G. apply R4. unfold want_hod. rewrite G. now destruct (g_mm c). }
    assert (G : forall want base extra bins v, line X c r want base extra bins v -> want = true ->
       forall mode (p : uparams (xa X)) o, triple X p (heap_of X o) mode v -> forall other b,
       (forall nb comp key, (nb < bins)%nat -> In (comp, key) [("1h", "p_k_1h"); ("2h", "p_k_2h"); ("tot", "p_k")] ->
          exists v, answer p (fun _ => o) mode comp = Ok v /\
            holds_grid (saved (x_grid X blk) other (full_log X c r) b) (bin_name base bins nb) (x_grid X blk) key (r_val v nb)) /\
       (forall n nb, (nb < n)%nat -> (bins <= nb)%nat \/ (bins = 1%nat /\ n <> 1%nat) \/ (bins <> 1%nat /\ n = 1%nat) ->
          forall k, saved (x_grid X blk) other (full_log X c r) b (bin_name base n nb) k = b (bin_name base n nb) k)).
    { intros want base extra bins v K W mode p o T other b. split.
      - intros nb comp key Ln C. exists (pick v comp). split; [exact (triple_pick _ _ _ _ _ _ _ T C)|].
        exact (line_saved X c r R5 F1 F2 F3 _ _ _ _ _ _ other b nb comp key K W Ln C).
      - intros n nb Ln D k. apply (line_untouched X c r R5 F1 F2 F3 _ _ _ _ _ _ other b n nb K Ln). now right. }
    split.
    - intros mode base I. unfold galaxy_kinds in I. apply in_app_or in I as [I|I].
      + destruct (g_gg c) eqn:E; [|destruct I]. destruct I as [Q|[]]. injection Q as <- <-.
        apply (G _ _ _ _ _ (line_gg X c r) E). now apply R7.
      + destruct (g_gm c) eqn:E; [|destruct I]. destruct I as [Q|[]]. injection Q as <- <-.
        apply (G _ _ _ _ _ (line_gm X c r) E). now apply R8.
    - intro A. destruct (R9 A) as [R9a R9b]. exists (d_o2 X r), (d_n2 X r). split; [exact R9a|]. split; [exact R9b|].
      intros mode base I. unfold alignment_kinds in I. apply in_app_or in I as [I|I]; [|apply in_app_or in I as [I|I]].
      + destruct (g_II c) eqn:E; [|destruct I]. destruct I as [Q|[]]. injection Q as <- <-. destruct (R10 A eq_refl) as (h & Eh & T).
        apply (G _ _ _ _ _ (line_ii X c r)); [now rewrite A, E|]. apply (triple_heap X _ h); [apply align_model|exact Eh|exact T].
      + destruct (g_gI c) eqn:E; [|destruct I]. destruct I as [Q|[]]. injection Q as <- <-. destruct (R11 A eq_refl) as (h & Eh & T).
        apply (G _ _ _ _ _ (line_gi X c r)); [now rewrite A, E|]. apply (triple_heap X _ h); [apply align_model|exact Eh|exact T].
      + destruct (g_mI c) eqn:E; [|destruct I]. destruct I as [Q|[]]. injection Q as <- <-. destruct (R12 A eq_refl) as (h & Eh & T).
        apply (G _ _ _ _ _ (line_mi X c r)); [now rewrite A, E|]. apply (triple_heap X _ h); [apply align_model|exact Eh|exact T].
  Qed.
End Run.

(** ** The projection after the run *)
Lemma matching_section p b base n i : q_input p = base -> matching_suffixes n (q_suffixes p) -> (n <> 1%nat -> (i < n)%nat) ->
  section_name (job_of p b) i = Some (bin_name base n (if Nat.eq_dec n 1 then 0%nat else i)).
Proof.
  intros E M L. unfold section_name, job_of. cbn [j_suffixes j_input]. unfold bin_name. destruct M as [[-> ->]|[N ->]].
  - cbn. now rewrite E.
  - destruct (Nat.eq_dec n 1); [contradiction|]. specialize (L N). rewrite (map_nth_error _ i (seq 0 n) (d := i)).
    + cbn [option_map]. now rewrite E.
    + rewrite (nth_error_nth' _ 0%nat) by now rewrite seq_length. now rewrite seq_nth by exact L.
Qed.
Lemma matching_count p b n nb : matching_suffixes n (q_suffixes p) -> bin_count (job_of p b) = Some nb -> n <> 1%nat -> nb = n.
Proof.
  intros [[-> _]|[_ E]] C N; [contradiction|]. unfold bin_count, job_of in C. cbn [j_suffixes] in C. rewrite E in C. injection C as <-. now rewrite map_length, seq_length.
Qed.
Lemma bins_match_galaxy X c blk st i o1 n1 mode base : In (mode, base) (galaxy_kinds c) -> reads X c blk st i -> (galaxy c = true -> x_bins X o1 = Ok n1) -> x_bins X o1 = Ok n1.
Proof.
  intros I _ H. apply H. unfold galaxy_kinds in I. unfold galaxy. destruct (g_gg c), (g_gm c); try reflexivity. destruct I.
Qed.

Section Chain.
  Variable X : ext.
  Variables (c : config) (blk : block) (st st' : pst X) (lg : list write).
  Hypothesis run : execute X c blk (st, []) = ((st', lg), Ok tt).
  Hypotheses (F1 : free_section (g_hod_section c)) (F2 : free_section (g_hod_section_ia c)) (F3 : free_section (g_obs_section c)).
  Variables (mode base : string).
  Hypothesis kind : In (mode, base) (galaxy_kinds c).
  Variable other : dblock -> write -> string -> option bval.
  Variable b0 : dblock.
  Let B := saved (x_grid X blk) other lg b0.
  Variable p : proj.
  Hypothesis input : q_input p = base.

  Theorem projected_fft T b' : fft_execute T p B = (b', Ok tt) ->
    exists i o1 n1 nsv nb rho, reads X c blk st i /\ x_update X (p_power X st) (kwargs X i) = (o1, Ok tt) /\ x_bins X o1 = Ok n1 /\
      read_nz B (q_sample p) = Some nsv /\ bin_count (job_of p B) = Some nb /\ (q_type p = "ds" -> read_rho B = Ok rho) /\
      b' (q_output p) "rp" = Some (BArr (map (t_rp T) (kept T))) /\
      (matching_suffixes n1 (q_suffixes p) -> (n1 <> 1%nat -> nb = n1) /\
       forall j, (j < nb)%nat -> exists v s f rows l,
        answer (request_single X blk (kwargs X i)) (fun _ => o1) mode "tot" = Ok v /\
        section_is s (x_grid X blk) (r_val v (if Nat.eq_dec n1 1 then 0%nat else j)) /\
        n_bin nsv (S j) = Some f /\ List.length rows = s_nz s /\
        (forall x, (x < s_nz s)%nat -> transform T (s_nk s) (s_k s) (s_pk s x) = Ok (nth x rows [])) /\
        b' (q_output p) (nth_bin (S j)) = Some (BArr l) /\ List.length l = List.length (kept T) /\
        forall x, (x < List.length l)%nat -> nth x l 0%R =
          (scale_of (q_type p) rho * simpson (s_nz s) (fun y => interp1d (FillValue 0) (n_size nsv) (n_z nsv) f (s_z s y) * snd (nth x (nth y rows []) (0, 0))) (s_z s))%R).
  Proof.
    intro H. apply fft_refines in H as (rho & r & RH & P & W1 & W2 & _ & _ & W5 & _).
    destruct (sections_written X c blk st st' lg run F1 F2 F3) as (i & o1 & n1 & R & U & NB & SG & _).
    destruct (project_value _ _ _ _ _ _ P) as (nsv & nb & NZ & BC & Hnb & FR & LR & _ & V).
    exists i, o1, n1, nsv, nb, rho. split; [exact R|]. split; [exact U|]. split; [now apply (bins_match_galaxy X c blk st i o1 n1 mode base)|].
    split; [exact NZ|]. split; [exact BC|]. split; [exact RH|]. split; [now rewrite W5, FR|]. intro M.
    assert (MC : n1 <> 1%nat -> nb = n1) by (intro N; exact (matching_count _ _ _ _ M BC N)). split; [exact MC|].
    intros j Lj. destruct (V j Lj) as (name & s & f & rows & SN & SS & NF & Hz & LRows & TR & LL & VV).
    rewrite (matching_section p B base n1 j input M) in SN by (intro N; rewrite <- (MC N); exact Lj). injection SN as <-.
    set (m := if Nat.eq_dec n1 1 then 0%nat else j) in *.
    assert (Lm : (m < n1)%nat) by (unfold m; destruct (Nat.eq_dec n1 1) as [->|N]; [lia|rewrite <- (MC N); exact Lj]).
    destruct (SG mode base kind other b0) as [S1 _]. destruct (S1 m "tot" "p_k" Lm) as (v & AV & HG); [cbn; tauto|].
    fold B in HG. destruct (read_grid _ _ _ _ HG) as (s' & RS & IS). rewrite SS in RS. injection RS as <-.
    exists v, s, f, rows, (nth j (snd r) []). split; [exact AV|]. split; [exact IS|]. split; [exact NF|]. split; [exact LRows|]. split; [exact TR|].
    split; [apply W2; now rewrite LR|]. split; [rewrite LL, FR; apply map_length|]. intros x Lx. rewrite LL in Lx. exact (VV x Lx).
  Qed.

  (** Suffixes that do not fit: nothing is projected. *)
  Theorem projected_unmatched T : exists i o1 n1, reads X c blk st i /\ x_update X (p_power X st) (kwargs X i) = (o1, Ok tt) /\ x_bins X o1 = Ok n1 /\
    ((forall n, b0 (bin_name base n 0) "p_k" = None) ->
     (n1 <> 1%nat /\ q_suffixes p = None) \/ (n1 = 1%nat /\ exists t, q_suffixes p = Some ("1" :: t)) ->
     forall b', fft_execute T p B <> (b', Ok tt)).
  Proof.
    destruct (sections_written X c blk st st' lg run F1 F2 F3) as (i & o1 & n1 & R & U & NB & SG & _).
    exists i, o1, n1. split; [exact R|]. split; [exact U|]. split; [now apply (bins_match_galaxy X c blk st i o1 n1 mode base)|].
    intros A D b' H. apply fft_refines in H as (rho & r & _ & P & _).
    destruct (project_value _ _ _ _ _ _ P) as (nsv & nb & NZ & BC & Hnb & FR & LR & _ & V).
    destruct (V 0%nat ltac:(lia)) as (name & s & f & rows & SN & SS & _).
    destruct (SG mode base kind other b0) as [_ S2]. fold B in S2.
    assert (Z : exists n, (0 < n)%nat /\ name = bin_name base n 0 /\ ((n1 = 1%nat /\ n <> 1%nat) \/ (n1 <> 1%nat /\ n = 1%nat))).
    { unfold section_name, job_of in SN. cbn [j_suffixes j_input] in SN. destruct D as [[N E]|[-> (t & E)]]; rewrite E in SN; cbn in SN; injection SN as <-; rewrite input.
      - exists 1%nat. split; [lia|]. split; [reflexivity|]. now right.
      - exists 2%nat. split; [lia|]. split; [reflexivity|]. left. split; [reflexivity|lia]. }
    destruct Z as (n & Ln & -> & Q). unfold read_pk in SS. rewrite (S2 n 0%nat Ln ltac:(now right) "p_k"), A in SS.
    repeat match type of SS with context[match ?x with Some _ => _ | None => _ end] => destruct x as [[]|] end; discriminate.
  Qed.
End Chain.
