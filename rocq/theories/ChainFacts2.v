(** The calls of the projection modules and the projections of RsModel and OgataModel; setup. *)
From Coq Require Import ZArith Ascii Decimal DecimalString.
From Verif Require Import Base Quad Interp FftModel RsModel RsSpec RsFacts2 OgataModel PipeModel PipeFacts OptModel ChainModel ChainSpec ChainFacts.
Open Scope R_scope.

Lemma count_job p b nb : read_count p b = Ok nb -> bin_count (job_of p b) = Some (Z.to_nat nb).
Proof.
  unfold read_count, bin_count, job_of. cbn [j_suffixes j_nbin]. destruct (q_suffixes p) as [l|].
  - intro E. injection E as <-. now rewrite Nat2Z.id.
  - destruct (b (q_sample p) "nbin"%string) as [[]|]; try discriminate. intro E. now injection E as <-.
Qed.
Lemma job_count p b n : bin_count (job_of p b) = Some n -> (1 <= n)%nat -> exists nb, read_count p b = Ok nb /\ (0 < nb)%Z /\ Z.to_nat nb = n.
Proof.
  unfold read_count, bin_count, job_of. cbn [j_suffixes j_nbin]. destruct (q_suffixes p) as [l|].
  - intros E H. injection E as <-. exists (Z.of_nat (List.length l)). split; [reflexivity|]. lia.
  - destruct (b (q_sample p) "nbin"%string) as [[]|]; try discriminate. intros E H. injection E as <-. eexists. split; [reflexivity|]. lia.
Qed.
(** The outcome of a collection, seen from the bins. *)
Lemma collect_of {A} n (f : nat -> res A) : (forall i, (i < n)%nat -> exists v, f i = Ok v) -> exists l, collect n f = Ok l.
Proof.
  induction n as [|n IH]; intro H; [exists []; reflexivity|]. destruct IH as (l & L); [intros; apply H; lia|].
  destruct (H n ltac:(lia)) as (v & V). cbn [collect]. rewrite L. cbn [bind]. rewrite V. eexists; reflexivity.
Qed.
Lemma rev_last {A} (l : list A) n v : List.length l = S n -> nth_error l n = Some v -> exists t, List.rev l = v :: t.
Proof.
  intros L N. destruct (List.rev l) as [|x t] eqn:E.
  - apply (f_equal (@List.length A)) in E. rewrite rev_length in E. cbn in E. lia.
  - exists t. f_equal. apply (f_equal (@List.rev A)) in E. rewrite rev_involutive in E. cbn in E. subst l.
    rewrite app_length in L. cbn in L. rewrite nth_error_app2 in N by lia. replace (n - List.length (rev t))%nat with 0%nat in N by lia. now injection N.
Qed.

Section Both.
  Variable bin : dblock -> nat -> res (list R * list R).
  Variable f : nat -> res (list R * list R).
  Variable p : proj.
  Variable b : dblock.
  Variable name : string.
  Hypothesis local : forall i b2, agree (q_output p) i b b2 -> bin b2 i = bin b i.
  Hypothesis same : forall i, bin b i = f i.
  Lemma both_ok b' : project_block bin p name b = (b', Ok tt) ->
    exists n outs o t, bin_count (job_of p b) = Some n /\ (1 <= n)%nat /\ collect n f = Ok outs /\ List.rev outs = o :: t /\ wrote p name (fst o, map snd outs) b b'.
  Proof.
    intro H. apply call_ok in H as (nb & rp & C & P & B & (v & V & E) & H1 & H2 & H3 & H4 & H5 & F); [|exact local].
    destruct (collect_of (Z.to_nat nb) f) as (outs & L).
    { intros i Hi. destruct (B i Hi) as (w & W & _). exists w. now rewrite <- same. }
    pose proof (proj1 (collect_spec _ _ _) L) as [LL NN].
    assert (LV : nth_error outs (Z.to_nat nb - 1) = Some v).
    { destruct (NN (Z.to_nat nb - 1)%nat ltac:(lia)) as (w & W & N). rewrite <- same, V in W. now injection W as <-. }
    destruct (rev_last outs (Z.to_nat nb - 1) v ltac:(lia) LV) as (t & RV).
    exists (Z.to_nat nb), outs, v, t. split; [now apply count_job|]. split; [lia|]. split; [exact L|]. split; [exact RV|].
    unfold wrote. cbn [fst snd]. rewrite map_length, LL. split; [lia|]. split.
    { intros i Hi. destruct (B i Hi) as (w & W & E'). rewrite E'. do 2 f_equal. destruct (NN i Hi) as (w' & W' & N).
      rewrite <- same, W in W'. injection W' as <-. symmetry. apply (nth_error_nth (map snd outs) i [] (x := snd w)). now apply map_nth_error. }
    rewrite Z2Nat.id by lia. subst rp. tauto.
  Qed.
  Lemma both_total n outs : bin_count (job_of p b) = Some n -> (1 <= n)%nat -> collect n f = Ok outs -> exists b', project_block bin p name b = (b', Ok tt).
  Proof.
    intros C Hn L. destruct (job_count p b n C Hn) as (nb & R & P & E). apply (call_total bin p b name local nb R P).
    intros i Hi. rewrite E in Hi. apply collect_spec in L as [_ N]. destruct (N i Hi) as (v & V & _). exists v. now rewrite same.
  Qed.
End Both.

(** *** FFTLog *)
Theorem fft_refines T p b b' : fft_execute T p b = (b', Ok tt) ->
  exists rho r, (q_type p = "ds"%string -> read_rho b = Ok rho) /\
    project T (job_of p b) rho (read_pk b) (read_nz b (q_sample p)) = Ok r /\ wrote p (q_type p) r b b'.
Proof.
  unfold fft_execute. destruct (if String.eqb (q_type p) "ds" then read_rho b else Ok (1%nat, fun _ => 1)) as [rho|] eqn:RH; [|discriminate].
  intro H. destruct (both_ok (fft_bin T p rho) (fft_bin T p rho b) p b (q_type p) (fun i b2 => fft_local T p rho _ b i b2) (fun i => eq_refl) b' H)
    as (n & outs & o & t & C & Hn & L & RV & W).
  exists rho, (fst o, map snd outs). split; [|split; [|exact W]].
  { intro E. rewrite E in RH. exact RH. }
  pose proof (proj1 (collect_spec _ _ _) L) as [LL NN]. destruct (NN 0%nat ltac:(lia)) as (v & V & _).
  unfold fft_bin in V. destruct (mean_density (q_type p) rho) as [d|] eqn:MD; [|discriminate]. cbn [bind] in V.
  unfold need_nz in V. destruct (read_nz b (q_sample p)) as [ns|] eqn:NZ; [|discriminate].
  unfold project. cbn [job_of j_type]. rewrite MD. cbn [bind]. unfold bin_count in C. cbn [job_of j_suffixes j_nbin] in C.
  assert (L' : collect n (one_bin T (job_of p b) d (read_pk b) ns) = Ok outs).
  { apply collect_spec. split; [exact LL|]. intros i Hi. destruct (NN i Hi) as (w & Wi & N). exists w. split; [|exact N].
    unfold fft_bin, need_nz in Wi. rewrite MD, NZ in Wi. exact Wi. }
  cbn [job_of j_suffixes j_nbin]. destruct (q_suffixes p) as [l|].
  - injection C as <-. cbn [bind]. fold (job_of p b). rewrite L'. cbn [bind]. now rewrite RV.
  - destruct (b (q_sample p) "nbin"%string) as [[]|]; try discriminate. injection C as <-. cbn [bind]. fold (job_of p b). rewrite L'. cbn [bind]. now rewrite RV.
Qed.
Lemma project_parts T J rho sections ns r : project T J rho sections ns = Ok r ->
  exists d nsv n outs, mean_density (j_type J) rho = Ok d /\ ns = Some nsv /\ bin_count J = Some n /\ (1 <= n)%nat /\ collect n (one_bin T J d sections nsv) = Ok outs.
Proof.
  unfold project. destruct (mean_density (j_type J) rho) as [d|]; [|discriminate]. cbn [bind]. destruct ns as [ns|]; [|discriminate]. cbn [bind].
  unfold bin_count. destruct (j_suffixes J) as [l|]; [|destruct (j_nbin J) as [m|]; [|discriminate]]; cbn [bind];
    match goal with |- context[collect ?n ?f] => destruct (collect n f) as [outs|] eqn:L; [|discriminate] end; cbn [bind]; intro H;
    exists d, ns; eexists; exists outs; (split; [reflexivity|]); (split; [reflexivity|]); (split; [reflexivity|]); split; try exact L;
    apply collect_spec in L as [LL _]; destruct outs; try discriminate; cbn in LL; lia.
Qed.
Theorem fft_total T p b rho r : (q_type p = "ds"%string -> read_rho b = Ok rho) ->
  project T (job_of p b) rho (read_pk b) (read_nz b (q_sample p)) = Ok r -> exists b', fft_execute T p b = (b', Ok tt).
Proof.
  intros D P. apply project_parts in P as (d & ns & n & outs & MD & NZ & C & Hn & L). cbn [job_of j_type] in MD.
  assert (G : forall rho', mean_density (q_type p) rho' = Ok d -> exists b', project_block (fft_bin T p rho') p (q_type p) b = (b', Ok tt)).
  { intros rho' MD'. apply (both_total _ (one_bin T (job_of p b) d (read_pk b) ns)) with (n := n) (outs := outs); try assumption.
    - intros i b2. apply fft_local.
    - intro i. unfold fft_bin, need_nz. now rewrite MD', NZ. }
  unfold fft_execute. destruct (String.eqb_spec (q_type p) "ds") as [E|N].
  - rewrite (D E). now apply G.
  - apply G. unfold mean_density in MD |- *. destruct (String.eqb_spec (q_type p) "ds"); [contradiction|exact MD].
Qed.
Theorem fft_fails T p b b' e : fft_execute T p b = (b', Err e) -> forall s k, s <> q_output p -> b' s k = b s k.
Proof.
  unfold fft_execute. destruct (if String.eqb (q_type p) "ds" then read_rho b else Ok (1%nat, fun _ => 1)) as [rho|]; intro H.
  - apply call_fails in H as [H _]; [exact H|]. intros i b2. apply fft_local.
  - injection H as <- _. reflexivity.
Qed.

(** *** Quadrature *)
Theorem quad_refines ht O p b b' : quad_execute ht O p b = (b', Ok tt) ->
  exists r, ogata_project ht O (job_of p b) (read_pk b) (read_nz b (q_sample p)) = Ok r /\ wrote p "" r b b'.
Proof.
  unfold quad_execute. intro H.
  destruct (both_ok (quad_bin ht O p) (quad_bin ht O p b) p b "" (fun i b2 => quad_local ht O p _ b i b2) (fun i => eq_refl) b' H)
    as (n & outs & o & t & C & Hn & L & RV & W).
  exists (fst o, map snd outs). split; [|exact W].
  pose proof (proj1 (collect_spec _ _ _) L) as [LL NN]. destruct (NN 0%nat ltac:(lia)) as (v & V & _).
  unfold quad_bin, need_nz in V. destruct (read_nz b (q_sample p)) as [ns|] eqn:NZ; [|discriminate].
  assert (L' : collect n (ogata_bin ht O (job_of p b) (read_pk b) ns) = Ok outs).
  { apply collect_spec. split; [exact LL|]. intros i Hi. destruct (NN i Hi) as (w & Wi & N). exists w. split; [|exact N].
    unfold quad_bin, need_nz in Wi. rewrite NZ in Wi. exact Wi. }
  unfold ogata_project. unfold bin_count in C. cbn [job_of j_suffixes j_nbin] in C |- *. destruct (q_suffixes p) as [l|].
  - injection C as <-. cbn [bind]. fold (job_of p b). rewrite L'. cbn [bind]. now rewrite RV.
  - destruct (b (q_sample p) "nbin"%string) as [[]|]; try discriminate. injection C as <-. cbn [bind]. fold (job_of p b). rewrite L'. cbn [bind]. now rewrite RV.
Qed.
Theorem quad_total ht O p b r : ogata_project ht O (job_of p b) (read_pk b) (read_nz b (q_sample p)) = Ok r -> exists b', quad_execute ht O p b = (b', Ok tt).
Proof.
  intro P. unfold ogata_project in P. unfold quad_execute.
  destruct (match j_suffixes (job_of p b) with Some l => Ok (List.length l) | None => _ end) as [n|] eqn:C; [|discriminate]. cbn [bind] in P.
  destruct (read_nz b (q_sample p)) as [ns|] eqn:NZ; [|destruct (Nat.eqb n 0); discriminate].
  destruct (collect n (ogata_bin ht O (job_of p b) (read_pk b) ns)) as [outs|] eqn:L; [|discriminate]. cbn [bind] in P.
  assert (Hn : (1 <= n)%nat). { apply collect_spec in L as [LL _]. destruct outs; [discriminate|]. cbn in LL. lia. }
  apply (both_total _ (ogata_bin ht O (job_of p b) (read_pk b) ns)) with (n := n) (outs := outs); try assumption.
  - intros i b2. apply quad_local.
  - intro i. unfold quad_bin, need_nz. now rewrite NZ.
  - unfold bin_count. destruct (j_suffixes (job_of p b)); [now injection C as <-|]. destruct (j_nbin (job_of p b)); [now injection C as <-|discriminate].
Qed.
Theorem quad_fails ht O p b b' e : quad_execute ht O p b = (b', Err e) -> forall s k, s <> q_output p -> b' s k = b s k.
Proof. unfold quad_execute. intro H. apply call_fails in H as [H _]; [exact H|]. intros i b2. apply quad_local. Qed.

(** ** Setup *)
Section Setup.
  Variables (missing wrong : string) (o : options) (suffixes : option (list string)).
  Context {A : Type}.
  Variable make : string -> nat -> R -> R -> R -> R -> res A.
  Variable default_n : Z.
  Lemma get_string_iff n d v : get_string missing wrong o n (Some d) = Ok v <-> text_option o n /\ v = (match o n with Some (OStr s) => s | _ => d end).
  Proof.
    unfold get_string, text_option, absent. destruct (o n) as [[]|]; split; intro H; try discriminate; try (destruct H as [[H|(s' & H)] H']; try discriminate; congruence).
    - injection H as <-. split; [right; eauto|reflexivity].
    - injection H as <-. split; [now left|reflexivity].
  Qed.
  Lemma get_int_iff n d v : get_int missing wrong o n (Some d) = Ok v <-> count_option o n /\ v = count_or o n d.
  Proof.
    unfold get_int, count_option, count_or, absent. destruct (o n) as [[]|]; split; intro H; try discriminate; try (destruct H as [[H|(s' & H)] H']; try discriminate; congruence).
    - injection H as <-. split; [right; eauto|reflexivity].
    - injection H as <-. split; [now left|reflexivity].
  Qed.
  Lemma get_double_iff n d v : get_double missing wrong o n (Some d) = Ok v <-> number_option o n /\ v = number_or o n d.
  Proof.
    unfold get_double, number_option, number_or, absent. destruct (o n) as [[]|]; split; intro H; try discriminate;
      try (destruct H as [[H|[(s' & H)|(s' & H)]] H']; try discriminate; congruence).
    - injection H as <-. split; [right; left; eauto|reflexivity].
    - injection H as <-. split; [right; right; eauto|reflexivity].
    - injection H as <-. split; [now left|reflexivity].
  Qed.
  Theorem setup_with_iff p t : setup_with missing wrong o suffixes make default_n = Ok (p, t) <->
    exists ty sample, o "corr_type"%string = Some (OStr ty) /\ (ty = "wp"%string \/ ty = "ds"%string) /\ o "sample"%string = Some (OStr sample) /\
      text_option o "input_section_name" /\ text_option o "output_section_name" /\ count_option o "n_transform" /\
      number_option o "k_min_extrapolate" /\ number_option o "k_max_extrapolate" /\ number_option o "rp_min" /\ number_option o "rp_max" /\
      p = proj_of o suffixes ty sample /\ (0 <= count_or o "n_transform" default_n)%Z /\
      make ty (Z.to_nat (count_or o "n_transform" default_n)) (number_or o "k_min_extrapolate" (1 / 10000)) (number_or o "k_max_extrapolate" 5000000)
        (number_or o "rp_min" (1 / 10)) (number_or o "rp_max" 1000) = Ok t.
  Proof.
    assert (DS : forall ty given, (ty = "wp"%string \/ ty = "ds"%string) ->
       (if String.eqb given "" then snd (default_sections ty) else given) = (if string_dec given "" then ty else given)).
    { intros ty given H. unfold default_sections. destruct (String.eqb_spec given ""), (string_dec given ""); try contradiction; [|reflexivity]. destruct H as [-> | ->]; reflexivity. }
    assert (DI : forall ty given, (ty = "wp"%string \/ ty = "ds"%string) ->
       (if String.eqb given "" then fst (default_sections ty) else given) = (if string_dec given "" then (if string_dec ty "ds" then "matter_galaxy_power" else "galaxy_power") else given)%string).
    { intros ty given H. unfold default_sections. destruct (String.eqb_spec given ""), (string_dec given ""); try contradiction; [|reflexivity]. destruct H as [-> | ->]; reflexivity. }
    assert (PO : forall ty sample i u, (ty = "wp"%string \/ ty = "ds"%string) ->
       i = (match o "input_section_name"%string with Some (OStr s) => s | _ => fst (default_sections ty) end) ->
       u = (match o "output_section_name"%string with Some (OStr s) => s | _ => snd (default_sections ty) end) ->
       {| q_type := ty; q_input := if String.eqb i "" then fst (default_sections ty) else i; q_output := if String.eqb u "" then snd (default_sections ty) else u;
          q_suffixes := suffixes; q_sample := sample |} = proj_of o suffixes ty sample).
    { intros ty sample i u T -> ->. unfold proj_of, text_or. f_equal.
      - rewrite DI by exact T. destruct (o "input_section_name"%string) as [[]|]; try reflexivity; destruct T as [-> | ->]; reflexivity.
      - rewrite DS by exact T. destruct (o "output_section_name"%string) as [[]|]; try reflexivity; destruct T as [-> | ->]; reflexivity. }
    unfold setup_with, read_proj. split.
    - intro H. unfold get_string at 1 in H. unfold absent in H. destruct (o "corr_type"%string) as [[| | |ty|]|]; try discriminate. cbn [bind] in H.
      assert (T : ty = "wp"%string \/ ty = "ds"%string).
      { cbn [existsb] in H. destruct (String.eqb_spec ty "wp"); [now left|]. destruct (String.eqb_spec ty "ds"); [now right|]. discriminate. }
      destruct (negb _); [discriminate|]. cbv zeta in H.
      destruct (get_string missing wrong o "input_section_name" _) as [gi|] eqn:GI; [|discriminate]. cbn [bind] in H.
      destruct (get_string missing wrong o "output_section_name" _) as [go|] eqn:GO; [|discriminate]. cbn [bind] in H.
      unfold get_string at 1 in H. unfold absent in H. destruct (o "sample"%string) as [[| | |sample|]|]; try discriminate. cbn [bind] in H.
      destruct (get_int missing wrong o "n_transform" _) as [n|] eqn:GN; [|discriminate]. cbn [bind] in H.
      destruct (get_double missing wrong o "k_min_extrapolate" _) as [k1|] eqn:G1; [|discriminate]. cbn [bind] in H.
      destruct (get_double missing wrong o "k_max_extrapolate" _) as [k2|] eqn:G2; [|discriminate]. cbn [bind] in H.
      destruct (get_double missing wrong o "rp_min" _) as [r1|] eqn:G3; [|discriminate]. cbn [bind] in H.
      destruct (get_double missing wrong o "rp_max" _) as [r2|] eqn:G4; [|discriminate]. cbn [bind] in H.
      destruct (Z.ltb n 0) eqn:Zn; [discriminate|]. apply Z.ltb_ge in Zn.
      destruct (make ty (Z.to_nat n) k1 k2 r1 r2) as [t'|] eqn:MK; [|discriminate]. cbn [bind] in H. injection H as <- <-.
      apply get_string_iff in GI as [OI EI]. apply get_string_iff in GO as [OO EO]. apply get_int_iff in GN as [ON EN].
      apply get_double_iff in G1 as [O1 E1], G2 as [O2 E2], G3 as [O3 E3], G4 as [O4 E4]. subst n k1 k2 r1 r2.
      exists ty, sample. repeat (split; [first [reflexivity|assumption|now apply PO]|]). exact MK.
    - intros (ty & sample & C & T & S & OI & OO & ON & O1 & O2 & O3 & O4 & -> & Zn & MK).
      unfold get_string at 1. rewrite C. cbn [bind].
      replace (existsb (String.eqb ty) ["wp"; "ds"]%string) with true by (destruct T as [-> | ->]; reflexivity). cbn [negb]. cbv zeta.
      rewrite (proj2 (get_string_iff "input_section_name" _ _) (conj OI eq_refl)). cbn [bind].
      rewrite (proj2 (get_string_iff "output_section_name" _ _) (conj OO eq_refl)). cbn [bind].
      unfold get_string at 1. rewrite S. cbn [bind].
      rewrite (proj2 (get_int_iff "n_transform" _ _) (conj ON eq_refl)). cbn [bind].
      rewrite (proj2 (get_double_iff "k_min_extrapolate" _ _) (conj O1 eq_refl)). cbn [bind].
      rewrite (proj2 (get_double_iff "k_max_extrapolate" _ _) (conj O2 eq_refl)). cbn [bind].
      rewrite (proj2 (get_double_iff "rp_min" _ _) (conj O3 eq_refl)). cbn [bind].
      rewrite (proj2 (get_double_iff "rp_max" _ _) (conj O4 eq_refl)). cbn [bind].
      replace (Z.ltb _ 0) with false by (symmetry; now apply Z.ltb_ge). rewrite MK. cbn [bind]. do 2 f_equal. now apply PO.
  Qed.
End Setup.
