(** When the projections of a data block succeed, alone and after the pipeline module. *)
From Coq Require Import ZArith Lia.
From Verif Require Import Base Spec Quad Interp FftModel RsModel RsSpec RsFacts RsFacts2 RsFacts3 RsExample OgataModel OgataFacts HodModel PkModel AddModel AddSpec PipeModel PipeSpec
  PipeFacts PipeFacts2 PipeFacts3 PipeExample OptModel ChainModel ChainSpec ChainFacts ChainFacts2 ChainFacts3 ChainFacts4 ChainFacts5.
Open Scope R_scope.

Lemma density_ok ty rho d : (ty = "ds"%string -> (1 <= fst rho)%nat /\ forall i, (i < fst rho)%nat -> snd rho i = d) -> exists v, mean_density ty rho = Ok v.
Proof.
  intro H. unfold mean_density. destruct (String.eqb_spec ty "ds") as [E|]; [|eauto]. destruct (H E) as [L A].
  destruct (Nat.eqb_spec (fst rho) 0); [lia|]. replace (forallb _ _) with true; [eauto|]. symmetry. apply forallb_forall.
  intros i I. apply in_seq in I. destruct (Req_EM_T _ _) as [|N]; [reflexivity|]. exfalso. apply N. rewrite !A by lia. reflexivity.
Qed.
Theorem project_total lgr lgi ty n k_min k_max lo hi T J rho d sections ns nb :
  0 < k_min -> k_min < k_max -> make_transformer lgr lgi ty n k_min k_max lo hi = Ok T ->
  (j_type J = "ds"%string -> (1 <= fst rho)%nat /\ forall i, (i < fst rho)%nat -> snd rho i = d) ->
  bin_count J = Some nb -> (1 <= nb)%nat ->
  (forall i, (i < nb)%nat -> exists name s f, section_name J i = Some name /\ sections name = Some s /\ n_bin ns (S i) = Some f /\ (1 <= RsModel.s_nz s)%nat) ->
  exists r, project T J rho sections (Some ns) = Ok r.
Proof.
  intros K1 K2 MK D BC NB S. destruct (proj2 (set_up lgr lgi ty n k_min k_max lo hi K1 K2) T MK) as (_ & _ & _ & _ & _ & TR).
  destruct (density_ok _ _ _ D) as [v E]. unfold project. rewrite E. cbn [bind].
  replace (match j_suffixes J with Some l => Ok (List.length l) | None => _ end) with (Ok nb : res nat).
  2:{ unfold bin_count in BC. destruct (j_suffixes J) as [l|]; [now injection BC as <-|]. now rewrite BC. }
  cbn [bind]. destruct (collect_of nb (one_bin T J v sections ns)) as [outs C].
  { intros i Li. destruct (S i Li) as (name & s & f & SN & SS & NF & NZ). unfold one_bin. unfold section_name in SN.
    replace (match j_suffixes J with Some l => _ | None => Ok (j_input J) end) with (Ok name : res string).
    2:{ destruct (j_suffixes J) as [l|]; [|now injection SN as <-]. destruct (nth_error l i); [now injection SN as <-|discriminate]. }
    cbn [bind]. rewrite SS. cbn [bind]. destruct (Nat.eqb_spec (RsModel.s_nz s) 0); [lia|].
    destruct (collect_of (RsModel.s_nz s) (fun j => transform T (RsModel.s_nk s) (RsModel.s_k s) (RsModel.s_pk s j))) as [rows ->]; [intros j _; apply TR|].
    cbn [bind]. rewrite NF. cbn [bind]. eauto. }
  rewrite C. cbn [bind]. assert (L : List.length outs = nb) by (apply collect_spec in C; apply C).
  destruct (List.rev outs) eqn:RV; [|eauto]. apply (f_equal (@List.length _)) in RV. rewrite rev_length in RV. cbn in RV. lia.
Qed.
Theorem fft_succeeds lgr lgi ty n k_min k_max lo hi T p b nb : 0 < k_min -> k_min < k_max -> make_transformer lgr lgi ty n k_min k_max lo hi = Ok T ->
  (q_type p = "ds"%string -> exists rho d, read_rho b = Ok rho /\ (1 <= fst rho)%nat /\ forall i, (i < fst rho)%nat -> snd rho i = d) ->
  bin_count (job_of p b) = Some nb -> (1 <= nb)%nat -> bins_present p b nb -> exists b', fft_execute T p b = (b', Ok tt).
Proof.
  intros K1 K2 MK D BC NB (ns & NZ & S).
  assert (R : exists rho d, (q_type p = "ds"%string -> read_rho b = Ok rho) /\ (q_type p = "ds"%string -> (1 <= fst rho)%nat /\ forall i, (i < fst rho)%nat -> snd rho i = d)).
  { destruct (string_dec (q_type p) "ds") as [E|N]; [destruct (D E) as (rho & d & A & B & C); exists rho, d; tauto|]. exists (1%nat, fun _ => 1), 1. split; intro; contradiction. }
  destruct R as (rho & d & R1 & R2).
  destruct (project_total lgr lgi ty n k_min k_max lo hi T (job_of p b) rho d (read_pk b) ns nb K1 K2 MK R2 BC NB S) as [r P].
  apply (fft_total T p b rho r R1). now rewrite NZ.
Qed.
Theorem quad_succeeds ht O p b nb : bin_count (job_of p b) = Some nb -> (1 <= nb)%nat -> bins_present p b nb -> exists b', quad_execute ht O p b = (b', Ok tt).
Proof.
  intros BC NB (ns & NZ & S). destruct (ogata_ok ht O (job_of p b) (read_pk b) ns nb BC NB S) as [r P]. apply (quad_total ht O p b r). now rewrite NZ.
Qed.

(** *** After the pipeline module *)
Section Chain.
  Variable X : ext.
  Variables (c : config) (blk : block) (st st' : pst X) (lg : list write).
  Hypothesis run : execute X c blk (st, []) = ((st', lg), Ok tt).
  Hypotheses (F1 : free_section (g_hod_section c)) (F2 : free_section (g_hod_section_ia c)) (F3 : free_section (g_obs_section c)).
  Variables (mode base : string).
  Hypothesis kind : In (mode, base) (galaxy_kinds c).
  Variable other : dblock -> write -> string -> option bval.
  Variable b0 : dblock.
  Let B := saved (x_grid X blk) other lg b0.
  Variable p : proj.
  Hypothesis input : q_input p = base.
  (** With one suffix per lens bin, or none for a single bin, every section the projections
      look for is there. *)
  Theorem chain_present : exists i o1 n1, reads X c blk st i /\ x_update X (p_power X st) (kwargs X i) = (o1, Ok tt) /\ x_bins X o1 = Ok n1 /\
    forall nb ns, matching_suffixes n1 (q_suffixes p) -> (1 <= fst (fst (x_grid X blk)))%nat -> bin_count (job_of p B) = Some nb ->
      read_nz B (q_sample p) = Some ns -> (forall j, (j < nb)%nat -> exists f, n_bin ns (S j) = Some f) -> bins_present p B nb.
  Proof.
    destruct (sections_written X c blk st st' lg run F1 F2 F3) as (i & o1 & n1 & R & U & NB & SG & _).
    exists i, o1, n1. split; [exact R|]. split; [exact U|]. split; [now apply (bins_match_galaxy X c blk st i o1 n1 mode base)|].
    intros nb ns M GZ BC NZ NF. exists ns. split; [exact NZ|]. intros j Lj. destruct (NF j Lj) as [f F].
    destruct (SG mode base kind other b0) as [S1 _]. fold B in S1.
    assert (Lk : n1 <> 1%nat -> (j < n1)%nat) by (intro N1; rewrite <- (matching_count p B n1 nb M BC N1); exact Lj).
    destruct (S1 (if Nat.eq_dec n1 1 then 0 else j)%nat "tot" "p_k") as (v & A & H).
    { destruct (Nat.eq_dec n1 1); [lia|auto]. }
    { right. right. now left. }
    destruct (read_grid _ _ _ _ H) as (s & RS & (Z1 & _)). exists (bin_name base n1 (if Nat.eq_dec n1 1 then 0 else j)), s, f.
    split; [now apply matching_section|]. split; [exact RS|]. split; [exact F|]. lia.
  Qed.
End Chain.
