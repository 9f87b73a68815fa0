(** From the projections and the predictions to the likelihood. *)
From Coq Require Import ZArith.
From Verif Require Import Base Spec FftModel RsModel RsSpec RsFacts2 OgataModel PipeModel OptModel TpModel TpFacts ChainModel ChainSpec ChainFacts ChainFacts2 ChainFacts3
  PredModel PredSpec PredFacts PredFacts2 MiniModel MiniSpec MiniFacts MiniFacts2 MiniFacts5.
From Coq Require Import List.
Open Scope R_scope.

Lemma collect_shape n (f : nat -> res (list R * list R)) rp outs : (forall i v, f i = Ok v -> fst v = rp /\ List.length (snd v) = List.length rp) ->
  collect n f = Ok outs -> forall v, In v outs -> fst v = rp /\ List.length (snd v) = List.length rp.
Proof.
  intros H C v I. apply collect_spec in C as [L C]. apply (In_nth_error) in I as (k & K). assert (k < n)%nat by (rewrite <- L; apply nth_error_Some; congruence).
  destruct (C k H0) as (w & W & E). rewrite K in E. injection E as ->. now apply (H k).
Qed.
Lemma rev_first (outs : list (list R * list R)) (rp : list R) r : (forall v, In v outs -> fst v = rp /\ List.length (snd v) = List.length rp) ->
  (match List.rev outs with [] => Err "UnboundLocalError"%string | o :: _ => Ok (fst o, map snd outs) end) = Ok r ->
  forall y, In y (snd r) -> List.length (fst r) = List.length y.
Proof.
  intros H E. destruct (List.rev outs) as [|o t] eqn:Rv; [discriminate|]. injection E as <-. cbn [fst snd]. intros y I. apply in_map_iff in I as (v & <- & I).
  destruct (H o ltac:(apply in_rev; rewrite Rv; now left)) as [-> _]. destruct (H v I) as [_ ->]. reflexivity.
Qed.
Lemma project_shape T J rho sec ns r : project T J rho sec ns = Ok r -> forall y, In y (snd r) -> List.length (fst r) = List.length y.
Proof.
  unfold project. intro H. apply bind_ok in H as (d & _ & H). apply bind_ok in H as (n & _ & H). apply bind_ok in H as (k & _ & H). apply bind_ok in H as (outs & C & H).
  apply (rev_first outs (map (fun i => t_rp T i) (RsModel.kept T)) r); [|exact H]. apply (collect_shape _ _ _ _) with (2 := C). intros i v V. unfold one_bin in V.
  apply bind_ok in V as (nm & _ & V). apply bind_ok in V as (s & _ & V). destruct (Nat.eqb (s_nz s) 0); [discriminate|]. apply bind_ok in V as (rows & _ & V). apply bind_ok in V as (f & _ & V).
  injection V as <-. cbn [fst snd]. split; [reflexivity|]. now rewrite !map_length, seq_length.
Qed.
Lemma ogata_shape ht O J sec ns r : ogata_project ht O J sec ns = Ok r -> forall y, In y (snd r) -> List.length (fst r) = List.length y.
Proof.
  unfold ogata_project. intro H. apply bind_ok in H as (k & _ & H). destruct ns as [ns|]; [|destruct (Nat.eqb k 0); discriminate]. apply bind_ok in H as (outs & C & H).
  apply (rev_first outs (map (fun i => o_rp O i) (o_kept O)) r); [|exact H]. apply (collect_shape _ _ _ _) with (2 := C). intros i v V. unfold ogata_bin in V.
  apply bind_ok in V as (nm & _ & V). apply bind_ok in V as (s & _ & V). destruct (Nat.eqb (s_nz s) 0); [discriminate|]. apply bind_ok in V as (f & _ & V).
  injection V as <-. cbn [fst snd]. split; [reflexivity|]. now rewrite !map_length, seq_length.
Qed.
(** What either projection leaves, as the likelihood sees it. *)
Definition either (T : transformer) (ht : R -> (R -> R) -> R -> R) (O : ogata) (p : proj) (b b' : dblock) : Prop :=
  fft_execute T p b = (b', Ok tt) \/ quad_execute ht O p b = (b', Ok tt).
Lemma either_leaves T ht O p b b' : either T ht O p b b' -> exists rp ys, (1 <= List.length ys)%nat /\ (forall y, In y ys -> List.length rp = List.length y) /\
  (forall i, (i < List.length ys)%nat -> b' (q_output p) (nth_bin (S i)) = Some (BArr (nth i ys []))) /\
  b' (q_output p) "nbin"%string = Some (BInt (Z.of_nat (List.length ys))) /\ b' (q_output p) "rp"%string = Some (BArr rp) /\ only_section (q_output p) (List.length ys) b b'.
Proof.
  intros [H|H].
  - destruct (fft_refines _ _ _ _ H) as (rho & r & _ & P & A & B & C & _ & D & _ & _ & E). exists (fst r), (snd r). repeat split; try assumption. apply (project_shape _ _ _ _ _ _ P).
  - destruct (quad_refines _ _ _ _ _ H) as (r & P & A & B & C & _ & D & _ & _ & E). exists (fst r), (snd r). repeat split; try assumption. apply (ogata_shape _ _ _ _ _ _ P).
Qed.
Lemma projection_theory T ht O p b b' : either T ht O p b b' -> of_separation (q_output p) ->
  exists k rp, (1 <= k)%nat /\ bin_counts b' [q_output p] (fun _ => k) /\ b' (q_output p) "rp"%string = Some (BArr rp) /\
    forall i, (1 <= i <= k)%nat -> exists y, b' (q_output p) (nth_bin i) = Some (BArr y) /\ has_theory b' (q_output p) i rp y.
Proof.
  intros H S. destruct (either_leaves _ _ _ _ _ _ H) as (rp & ys & N & L & B & NB & RP & _). exists (List.length ys), rp. split; [exact N|]. split; [intros s [<-|[]]; exact NB|]. split; [exact RP|].
  intros i Hi. exists (nth (i - 1) ys []). specialize (B (i - 1)%nat ltac:(lia)). replace (Datatypes.S (i - 1)) with i in B by lia. split; [exact B|]. split; [exact B|]. split; [apply L, nth_In; lia|].
  left. now split.
Qed.
Lemma projection_renamed T ht O p b b' : either T ht O p b b' -> ~ of_separation (q_output p) ->
  b (q_output p) "mass_1"%string = None -> b (q_output p) "luminosity_1"%string = None ->
  forall to_mpc c, In (q_output p) (m_sections c) -> exists e, mini_execute to_mpc c b' = (b', Err e).
Proof.
  intros H S M1 L1 to_mpc c I. destruct (either_leaves _ _ _ _ _ _ H) as (rp & ys & N & L & B & NB & RP & F).
  destruct (theory_bins to_mpc c b') as [ts|e] eqn:T0; [|exists e; now apply execute_err]. exfalso.
  destruct (theory_inv _ _ _ _ T0) as (nb & C & LT & LX & V). pose proof (C _ I) as NB'. rewrite NB in NB'. injection NB' as NB'. apply Nat2Z.inj in NB'.
  assert (J : In (q_output p, 1%nat) (bin_list nb (m_sections c))) by (apply in_flat_map; exists (q_output p); split; [exact I|]; apply in_map; apply in_seq; lia).
  apply (In_nth _ _ (""%string, 0%nat)) in J as (k & Hk & E). specialize (V k ltac:(lia)). cbn zeta in V. rewrite E in V. cbn [fst snd] in V.
  assert (G : forall n, n = "mass_1"%string \/ n = "luminosity_1"%string -> b' (q_output p) n = b (q_output p) n).
  { intros n Hn. apply F. right. split; [destruct Hn as [-> | ->]; cbn; intuition discriminate|]. intros i _. destruct Hn as [-> | ->]; discriminate. }
  change (1 - 1)%nat with 0%nat in V. unfold theory_bin, abscissae in V.
  assert (RS : real_space (q_output p) = false) by (destruct (real_space (q_output p)) eqn:Q; [apply real_space_iff in Q; contradiction|reflexivity]).
  apply bind_ok in V as (a & Va & V). apply bind_ok in Va as (x & _ & Va). rewrite RS in Va. change ("mass_" ++ dec (0 + 1))%string with "mass_1"%string in Va. change ("luminosity_" ++ dec (0 + 1))%string with "luminosity_1"%string in Va.
  rewrite (G "mass_1"%string) in Va by now left. rewrite M1 in Va. unfold array in Va. rewrite (G "luminosity_1"%string) in Va by now right. rewrite L1 in Va. discriminate.
Qed.
Lemma prediction_theory zd mk c b b' : pred_execute zd mk c b = (b', Ok tt) -> ~ of_separation (p_out c) ->
  bin_counts b' [p_out c] (fun _ => List.length (p_suffixes c)) /\
  forall i v q, written b' (p_out c) i v q -> List.length v = List.length q -> has_theory b' (p_out c) i q v.
Proof.
  intros H S. destruct (execute_runs _ _ _ _ _ H) as (_ & _ & _ & N & _ & _). split; [intros s [<-|[]]; exact N|]. intros i v q (A & _ & B) L. split; [exact A|]. split; [now symmetry|]. right. left. now split.
Qed.
