(** A concrete chain: the toy pipeline, the projections and the correction, on one block. *)
From Coq Require Import ZArith Lia.
From Verif Require Import Base Spec Quad Interp FftModel RsModel RsSpec RsFacts RsFacts2 RsFacts3 RsExample FftFacts7 OgataModel OgataFacts HodModel PkModel AddModel AddSpec PipeModel PipeSpec
  PipeFacts PipeFacts2 PipeFacts3 PipeExample OptModel ChainModel ChainSpec ChainFacts ChainFacts2 ChainFacts3 ChainFacts4 ChainFacts5 ChainFacts6.
Open Scope R_scope.
Open Scope string_scope.

Definition chain_block : dblock := fun s n =>
  if String.eqb s "lens" then
    (if String.eqb n "nbin" then Some (BInt 2)
     else if String.eqb n "z" then Some (BArr [0; 1]%R)
     else if (String.eqb n "bin_1" || String.eqb n "bin_2")%bool then Some (BArr [1; 1]%R) else None)
  else if String.eqb s "density" then Some (BArr [5; 5]%R)
  else if String.eqb s "cosmological_parameters" then Some (BDbl 1) else None.
(** Values of the log without a grid leave their section as it is. *)
Definition keep : dblock -> write -> string -> option bval := fun b w n => b (w_sec w) n.
Lemma saved_keep g lg b s n : (forall w, In w lg -> w_sec w <> s \/ w_val w = None) -> saved g keep lg b s n = b s n.
Proof.
  unfold saved. revert b. induction lg as [|w lg IH]; intros b A; [reflexivity|]. cbn [fold_left].
  rewrite IH by (intros; apply A; now right). unfold save, keep. destruct (A w (or_introl eq_refl)) as [N|N].
  - destruct (w_val w); [unfold put_grid; now rewrite !bput_other by (left; congruence)|]. destruct (String.eqb_spec (w_sec w) s) as [->|]; reflexivity.
  - rewrite N. destruct (String.eqb_spec (w_sec w) s) as [->|]; reflexivity.
Qed.
Definition chain_run := execute toy_ext (toy_config 4) (toy_block "t") (toy_start, []).
Definition chain_after : dblock := saved (x_grid toy_ext (toy_block "t")) keep (snd (fst chain_run)) chain_block.
Lemma chain_ok : exists st', execute toy_ext (toy_config 4) (toy_block "t") (toy_start, []) = ((st', snd (fst chain_run)), Ok tt).
Proof. destruct (toy_succeeds 4 "t" toy_start eq_refl) as (st' & lg & E). exists st'. unfold chain_run. rewrite E. reflexivity. Qed.
Lemma chain_other s : s = "lens" \/ s = "density" \/ s = "cosmological_parameters" -> forall n, chain_after s n = chain_block s n.
Proof.
  intros H n. apply saved_keep.
  assert (E : forallb (fun w => match w_val w with Some _ => negb (String.eqb (w_sec w) s) | None => true end) (snd (fst chain_run)) = true)
    by (destruct H as [->|[->| ->]]; reflexivity).
  intros w I. rewrite forallb_forall in E. specialize (E w I). clear I. destruct (w_val w); [left|right; reflexivity].
  intro Q. rewrite Q, String.eqb_refl in E. discriminate E.
Qed.
Definition chain_proj (ty : string) : proj :=
  {| q_type := ty; q_input := (if String.eqb ty "ds" then "matter_galaxy_power" else "galaxy_power"); q_output := ty; q_suffixes := Some ["1"; "2"]; q_sample := "lens" |}.
Lemma present_at X c blk st st' lg mode other b0 p B : B = saved (x_grid X blk) other lg b0 -> execute X c blk (st, []) = ((st', lg), Ok tt) ->
  free_section (g_hod_section c) -> free_section (g_hod_section_ia c) -> free_section (g_obs_section c) -> In (mode, q_input p) (galaxy_kinds c) ->
  exists i o1 n1, reads X c blk st i /\ x_update X (p_power X st) (kwargs X i) = (o1, Ok tt) /\ x_bins X o1 = Ok n1 /\
    forall nb ns, matching_suffixes n1 (q_suffixes p) -> (1 <= fst (fst (x_grid X blk)))%nat -> bin_count (job_of p B) = Some nb ->
      read_nz B (q_sample p) = Some ns -> (forall j, (j < nb)%nat -> exists f, n_bin ns (S j) = Some f) -> bins_present p B nb.
Proof. intros -> E F1 F2 F3 K. exact (chain_present X c blk st st' lg E F1 F2 F3 mode (q_input p) K other b0 p eq_refl). Qed.
Lemma chain_after_eq : chain_after = saved (x_grid toy_ext (toy_block "t")) keep (snd (fst chain_run)) chain_block.
Proof. reflexivity. Qed.
Lemma chain_bins ty : ty = "wp" \/ ty = "ds" -> bins_present (chain_proj ty) chain_after 2.
Proof.
  intro TY. destruct chain_ok as [st' E]. destruct (toy_sections 4) as (F1 & F2 & F3).
  assert (K : exists mode, In (mode, q_input (chain_proj ty)) (galaxy_kinds (toy_config 4))) by (destruct TY as [-> | ->]; eexists; cbn; eauto 7).
  destruct K as [mode K].
  destruct (present_at toy_ext _ _ _ _ _ mode keep chain_block (chain_proj ty) chain_after chain_after_eq E F1 F2 F3 K) as (i & o1 & n1 & _ & _ & NB & P).
  cbn in NB. injection NB as <-.
  assert (RZ : read_nz chain_after "lens" = Some {| n_size := 2; n_z := at_ [0; 1]%R;
     n_bin := fun i => match chain_after "lens" (bin_key i) with Some (BArr f) => if Nat.eqb (List.length f) 2 then Some (at_ f) else None | _ => None end |}).
  { unfold read_nz. rewrite (chain_other "lens" (or_introl eq_refl) "z"). reflexivity. }
  clear E. change (fst (fst (x_grid toy_ext (toy_block "t")))) with 2%nat in P.
  assert (M : matching_suffixes 2 (q_suffixes (chain_proj ty))) by (right; split; [discriminate|reflexivity]).
  assert (BC : bin_count (job_of (chain_proj ty) chain_after) = Some 2%nat) by (unfold bin_count, job_of; cbn [j_suffixes chain_proj q_suffixes List.length]; reflexivity).
  refine (P 2%nat _ M (Nat.lt_0_succ 1) BC RZ _). clear P RZ.
  intros j Hj. cbn [n_bin]. destruct j as [|[|j]]; [| |lia]; rewrite (chain_other "lens" (or_introl eq_refl)); eexists; reflexivity.
Qed.
Lemma toy_maker ty : ty = "wp" \/ ty = "ds" -> exists T, make_transformer gam0 gam0 ty 4 1 (exp 3) 0 1000 = Ok T.
Proof. intro H. apply (proj1 (set_up gam0 gam0 ty 4 1 (exp 3) 0 1000 ltac:(lra) toy_max)); [exact H|lia]. Qed.
Lemma chain_fft ty : ty = "wp" \/ ty = "ds" -> exists T b', make_transformer gam0 gam0 ty 4 1 (exp 3) 0 1000 = Ok T /\ fft_execute T (chain_proj ty) chain_after = (b', Ok tt).
Proof.
  intro TY. destruct (toy_maker ty TY) as [T MK]. exists T.
  destruct (fft_succeeds gam0 gam0 ty 4 1 (exp 3) 0 1000 T (chain_proj ty) chain_after 2 ltac:(lra) toy_max MK) as [b' H]; [|reflexivity|lia|now apply chain_bins|eauto].
  intros _. exists (2%nat, at_ [5; 5]%R), 5%R. split; [unfold read_rho; rewrite (chain_other "density"); [reflexivity|tauto]|]. split; [cbn; lia|].
  intros i Hi. cbn in Hi. destruct i as [|[|i]]; [reflexivity|reflexivity|lia].
Qed.
Lemma chain_quad : exists O b', make_ogata "wp" 2 1 (exp 1) 0 1 = Ok O /\ quad_execute (plain_ht (fun _ => 1%R) 1) O (chain_proj "wp") chain_after = (b', Ok tt).
Proof.
  destruct toy_ogata as (O & MK & _). exists O. destruct (quad_succeeds (plain_ht (fun _ => 1%R) 1) O (chain_proj "wp") chain_after 2) as [b' H]; [reflexivity|lia|apply chain_bins; tauto|eauto].
Qed.
Lemma chain_cosmology : has_cosmology chain_after.
Proof.
  assert (E : forall n, chain_after "cosmological_parameters" n = Some (BDbl 1)) by (intro n; rewrite (chain_other "cosmological_parameters"); [reflexivity|tauto]).
  split; [intros n _; rewrite E; left; eauto|]. right. rewrite E. left. eauto.
Qed.
