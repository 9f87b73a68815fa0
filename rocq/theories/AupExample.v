(** A concrete run of add_and_upsample.py: matter in place, galaxies and galaxy lensing combined,
    matter alignments extrapolated in two bins. *)
From Coq Require Import ZArith Lia Lra.
From Verif Require Import Base Interp HodModel PkModel AddModel AddSpec FftModel RsModel PipeModel OptModel ChainModel PredModel PredSpec AupModel AupSpec AupSpec2
  AupFacts AupFacts2 AupFacts3 AupFacts4 AupFacts5 AupFacts6.
Open Scope R_scope.

Definition au_cfg (ff : list R) : aconfig :=
  {| a_fred := Some ([0; 1], ff); a_mm := extrapolates; a_gg := adds; a_gm := adds; a_mI := extrapolates; a_II := OStr "no"; a_gI := OBool false;
     a_ext := "_in"; a_red := "_red"; a_blue := "_blue"; a_hext := "hod"; a_hred := "hod_red"; a_hblue := "hod_blue" |}.
Definition au_power (s : string) (z : list R) (t : list (list R)) (b : dblock) : dblock := put_axes_table b s "z" z "k_h" [1; 2] "p_k" t.
Definition au_bins (s : string) (n oz : Z) (b : dblock) : dblock := bput (bput b s "nbins" (BInt n)) s "observable_z" (BInt oz).
(** The sample [s] takes part with the same tables in both combinations. *)
Definition au_block (zr : list R) (red blue : list (list R)) (m : Z) : dblock :=
  au_bins "hod" 2 0 (au_bins "hod_red" 1 1 (au_bins "hod_blue" m 0
  (au_power "galaxy_power_red" zr red (au_power "galaxy_power_blue" zr blue
  (au_power "matter_galaxy_power_red" zr red (au_power "matter_galaxy_power_blue" zr blue
  (au_power "matter_intrinsic_power_in_1" [0; 1] [[-1; -2]; [-3; 4]] (au_power "matter_intrinsic_power_in_2" [0; 1] [[1; 1]; [0; 1]]
  (au_power "matter_power_nl" [0; 1] [[1; 2]; [3; 4]]
  (au_power "matter_power_lin" [0; 1 / 2; 2] [[0; 0]; [0; 0]; [0; 0]] (fun _ _ => None))))))))))).
Lemma rising2 a b : a < b -> rising [a; b].
Proof. intros H. split; [cbn; lia|]. intros [|i] Hi; cbn in *; [lra|lia]. Qed.
Lemma good2 a b : a < b -> good_axes [a; b] [1; 2].
Proof. intros H. split; [now apply rising2|]. split; [apply rising2; lra|]. intros x [<-|[<-|[]]]; lra. Qed.
Definition two_rows (t : list (list R)) : Prop := exists a b c d, t = [[a; b]; [c; d]].
Lemma shaped2 a b t : two_rows t -> shaped [a; b] [1; 2] t.
Proof. intros (x & y & z & w & ->). split; [reflexivity|]. intros r [<-|[<-|[]]]; reflexivity. Qed.
Section Au.
  Variables (a b : R) (red blue : list (list R)).
  Hypotheses (Hab : a < b) (Hr : two_rows red) (Hb : two_rows blue).
  Lemma au_grid m : grid_of (au_block [a; b] red blue m) [0; 1 / 2; 2] [1; 2].
  Proof. split; [reflexivity|]. split; [reflexivity|]. intros x [<-|[<-|[]]]; lra. Qed.
  Lemma au_red s m : s = GG \/ s = GM -> has_power (au_block [a; b] red blue m) (name_of s ++ "_red" ++ bin_name 1 1) [a; b] [1; 2] red /\
    au_block [a; b] red blue m (name_of s ++ "_blue" ++ bin_name 1 1)%string "p_k"%string = Some (BTab blue).
  Proof. intros [->| ->]; (split; [|reflexivity]); (split; [reflexivity|]; split; [reflexivity|]; split; [reflexivity|]; split; [now apply good2|now apply shaped2]). Qed.
  Lemma au_fraction f0 f1 : good_fraction (au_cfg [f0; f1]).
  Proof. exists [0; 1], [f0; f1]. split; [reflexivity|]. split; [apply rising2; lra|reflexivity]. Qed.
  Lemma au_in i m : (1 <= i <= 2)%nat -> exists t, two_rows t /\ has_power (au_block [a; b] red blue m) (name_of MI ++ "_in" ++ bin_name 2 i) [0; 1] [1; 2] t.
  Proof.
    intros Hi. assert (E : i = 1%nat \/ i = 2%nat) by lia. destruct E as [->| ->].
    - exists [[-1; -2]; [-3; 4]]. split; [repeat eexists|]. split; [reflexivity|]. split; [reflexivity|]. split; [reflexivity|]. split; [apply good2; lra|apply shaped2; repeat eexists].
    - exists [[1; 1]; [0; 1]]. split; [repeat eexists|]. split; [reflexivity|]. split; [reflexivity|]. split; [reflexivity|]. split; [apply good2; lra|apply shaped2; repeat eexists].
  Qed.
  Lemma au_matter m : has_power (au_block [a; b] red blue m) "matter_power_nl" [0; 1] [1; 2] [[1; 2]; [3; 4]].
  Proof. split; [reflexivity|]. split; [reflexivity|]. split; [reflexivity|]. split; [apply good2; lra|apply shaped2; repeat eexists]. Qed.
  Lemma au_complete f0 f1 : complete (au_cfg [f0; f1]) (au_block [a; b] red blue 1).
  Proof.
    split; [|split].
    - intros _. exists [0; 1], [1; 2], [[1; 2]; [3; 4]]. apply au_matter.
    - intros s. destruct s; cbn; intro E; try discriminate E. exists 2%Z, 0%Z. split; [split; reflexivity|]. intros i Hi. change (Z.to_nat 2) with 2%nat in Hi.
      destruct (au_in i 1 Hi) as (t & _ & T). exists [0; 1], [1; 2], t. exact T.
    - intros s E. split; [apply au_fraction|]. exists 1%Z, 1%Z. split; [split; reflexivity|]. split; [reflexivity|]. intros i Hi. change (Z.to_nat 1) with 1%nat in Hi. assert (i = 1%nat) by lia. subst i.
      exists [a; b], [1; 2], red, blue. destruct (au_red s 1) as [A B]; [destruct s; cbn in E; try discriminate E; tauto|]. split; [exact A|]. split; [exact B|]. now apply shaped2.
  Qed.
  Lemma au_runs f0 f1 : exists b', aup_execute true (au_cfg [f0; f1]) (au_block [a; b] red blue 1) = (b', Ok tt).
  Proof. apply (runs true _ _ [0; 1 / 2; 2] [1; 2]); [apply au_grid|apply au_complete|now left]. Qed.
  (** The combination at a redshift of the table. *)
  Lemma au_values f0 f1 b' s : aup_execute true (au_cfg [f0; f1]) (au_block [a; b] red blue 1) = (b', Ok tt) -> s = GG \/ s = GM ->
    holds b' (name_of s) [0; 1 / 2; 2] [1; 2] (resampled true [a; b] [1; 2] (fun j i => mixed s (line [0; 1] [f0; f1] (nth j [a; b] 0)) (cell red j i) (cell blue j i))).
  Proof.
    intros H S. destruct (au_red s 1 S) as [A B].
    pose proof (combination true (au_cfg [f0; f1]) _ b' s 1 1 1 [0; 1 / 2; 2] [1; 2] [a; b] [1; 2] red blue (fun j => line [0; 1] [f0; f1] (nth j [a; b] 0)) H (au_grid 1)) as X.
    assert (X1 : option_of (au_cfg [f0; f1]) s = adds) by (destruct S as [->| ->]; reflexivity).
    specialize (X X1 (au_fraction f0 f1) (conj eq_refl eq_refl) ltac:(change (Z.to_nat 1) with 1%nat; lia) A B (shaped2 a b blue Hb)).
    assert (N : (name_of s ++ bin_name 1 1)%string = name_of s) by (destruct S as [->| ->]; reflexivity). rewrite N in X. apply X.
    intros j Hj. exists [0; 1], [f0; f1]. split; [reflexivity|]. apply line_value. apply rising2; lra.
  Qed.
End Au.
Lemma line_unit f0 f1 z : line [0; 1] [f0; f1] z = f0 + (f1 - f0) * z.
Proof.
  symmetry. apply line_only; [apply rising2; lra|]. exists 0%nat. split; [cbn; lia|]. split; [now left|]. split; [now left|]. cbn. field.
Qed.
