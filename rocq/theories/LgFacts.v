(** The DMHaloModel the legacy ingredients carry from turn to turn and from call to call. *)
From Verif Require Import Base FftModel HmiModel HmiSpec HmiFacts3 ChainModel MiniModel LgModel LgSpec.
Open Scope R_scope.

Section Carry.
  Variable dset : dict -> dict -> dict.
  Variable mset : string -> string -> dict -> dict.
  Variable astro : list R -> cosmo.
  Variable growth : cosmo -> R -> R.
  Variable root : (R -> R) -> option R.
  Variable sigma8 : dblock -> hpar -> R.
  Variable variance : dblock -> hpar -> R -> R.
  Variable rd : dblock -> list R -> lg_reads.
  Hypothesis HL : setting_law dset.
  Hypothesis ML : model_law mset.
  Hypothesis H8 : forall b, profile_free (sigma8 b).
  Hypothesis HV : forall b, profile_free (variance b).
  Variable x0 : hpar.

  (** One key is set over a dictionary, or has been already. *)
  Definition touched (k : string) (d0 d : dict) : Prop := d = d0 \/ exists v, d = dset d0 [(k, v)].
  Lemma touched_set k d0 d v : touched k d0 d -> dset d [(k, v)] = dset d0 [(k, v)].
  Proof.
    intros [->|[w ->]]; [reflexivity|]. destruct HL as [_ [L _]]. apply L.
    split; [reflexivity|]. repeat constructor. intros [].
  Qed.
  Lemma touched_again k d0 d v : touched k d0 d -> touched k d0 (dset d [(k, v)]).
  Proof. intros T. right. exists v. apply touched_set, T. Qed.

  Definition mead_model : string := "SOVirial_Mead".
  Definition base_mdef : dict := mset (hp_mdef x0) mead_model (hp_mdef_par x0).
  Record reach (x : hpar) : Prop := {
    re_hmf : hp_hmf x = hp_hmf x0;
    re_bias : hp_bias x = hp_bias x0;
    re_noconv : hp_noconv x = hp_noconv x0;
    re_prof : hp_prof x = hp_prof x0;
    re_conc : hp_conc x = hp_conc x0;
    re_prof_par : touched "eta_bloat" (hp_prof_par x0) (hp_prof_par x);
    re_conc_par : touched "norm" (hp_conc_par x0) (hp_conc_par x) }.
  Definition reach_plain (x : hpar) : Prop := hp_mdef x = hp_mdef x0 /\ hp_mdef_par x = hp_mdef_par x0.
  Definition reach_mead (x : hpar) : Prop :=
    reach_plain x \/ (hp_mdef x = mead_model /\ exists v, hp_mdef_par x = dset base_mdef [("overdensity"%string, v)]).

  Lemma mead_params x v : reach_mead x ->
    dset (mset (hp_mdef x) mead_model (hp_mdef_par x)) [("overdensity"%string, v)] = dset base_mdef [("overdensity"%string, v)].
  Proof.
    intros [[E1 E2]|[E1 [w E2]]]; rewrite E1, E2; [reflexivity|].
    rewrite ML. apply touched_set. right. exists w. reflexivity.
  Qed.

  Section Turn.
    Variable cfg : lg_config.
    Definition good (x : hpar) : Prop :=
      reach x /\ match lc_mead cfg with Some _ => reach_mead x /\ hp_conc_par x = hp_conc_par x0 | None => reach_plain x end.
    Notation turn := (lg_turn dset mset growth root sigma8 variance cfg).

    Lemma good_start : good x0.
    Proof.
      split; [constructor; try reflexivity; left; reflexivity|].
      destruct (lc_mead cfg); [split; [left|]|]; try split; reflexivity.
    Qed.

    Lemma turn_good b i x z : good x -> good (fst (turn b i x z)) /\ snd (turn b i x z) = snd (turn b i x0 z).
    Proof.
      intros [R M]. unfold good, lg_turn. destruct (lc_mead cfg) as [m|].
      - destruct M as [M MC]. unfold lg_turn_mead. cbv zeta.
        set (dc := lg_dc_Mead _ _ _ _ _). set (dv := lg_Dv_Mead _ _ _ _ _).
        set (x1 := lg_upd_mdef dset mset z dc "SOVirial_Mead" _ x). set (y1 := lg_upd_mdef dset mset z dc "SOVirial_Mead" _ x0).
        assert (PM : hp_mdef_par x1 = dset base_mdef [("overdensity"%string, dv)]) by (apply (mead_params x dv), M).
        assert (G : reach x1 /\ reach_mead x1 /\ hp_conc_par x1 = hp_conc_par x0).
        { split; [constructor; cbn; apply R|]. split; [|exact MC]. right. split; [reflexivity|]. exists dv. exact PM. }
        assert (E : forall A (q : hpar -> A), profile_free q -> q x1 = q y1).
        { intros A q Q. apply Q; try reflexivity; [exact PM|apply (re_hmf _ R)|apply (re_bias _ R)|apply (re_noconv _ R)]. }
        rewrite (E _ _ (H8 b)), (E _ _ (HV b)).
        destruct (bind _ _) as [[n zf]|e]; cbn [fst snd]; [|split; [exact G|reflexivity]].
        destruct G as [G1 G2]. split; [split|].
        + constructor; cbn; try apply R. do 2 apply touched_again. apply R.
        + split; [|exact MC]. right. split; [reflexivity|]. exists dv. exact PM.
        + assert (E2 : forall e, lg_upd_prof dset [("eta_bloat"%string, e)] x1 = lg_upd_prof dset [("eta_bloat"%string, e)] y1).
          { intros e. unfold lg_upd_prof. rewrite PM. cbn.
            rewrite (re_hmf _ R), (re_bias _ R), (re_noconv _ R), (re_prof _ R), (re_conc _ R),
              (touched_set _ _ _ e (re_prof_par _ R)). fold base_mdef. rewrite MC. reflexivity. }
          rewrite E2. reflexivity.
      - unfold lg_turn_plain. cbv zeta. set (dc := if String.eqb _ _ then _ else _). cbn [fst snd].
        split; [split|].
        + constructor; cbn; try apply R; do 2 apply touched_again; apply R.
        + exact M.
        + assert (E1 : forall e n, upd_par dset [("eta_bloat"%string, e)] [("norm"%string, n)] (lg_upd_z z dc x)
                     = upd_par dset [("eta_bloat"%string, e)] [("norm"%string, n)] (lg_upd_z z dc x0)).
          { intros e n. destruct M as [M1 M2]. unfold upd_par, lg_upd_z. cbn.
            rewrite (re_hmf _ R), (re_bias _ R), (re_noconv _ R), (re_prof _ R), (re_conc _ R), M1, M2,
              (touched_set _ _ _ e (re_prof_par _ R)), (touched_set _ _ _ n (re_conc_par _ R)). reflexivity. }
          rewrite E1. reflexivity.
    Qed.

    (** The loop gives the rows its redshifts give one at a time. *)
    Fixpoint rows_of (b : dblock) (i : lg_input) (zs : list R) : res (list lg_row) :=
      match zs with
      | [] => Ok []
      | z :: t => r <- snd (turn b i x0 z) ;; rs <- rows_of b i t ;; Ok (r :: rs)
      end.
    Notation loop := (lg_loop dset mset growth root sigma8 variance cfg).
    Lemma loop_good b i : forall zs x, good x -> good (fst (loop b i x zs)) /\ snd (loop b i x zs) = rows_of b i zs.
    Proof.
      induction zs as [|z zs IH]; intros x G; cbn [lg_loop rows_of]; [split; [exact G|reflexivity]|].
      destruct (turn_good b i x z G) as [G' E]. rewrite <- E.
      destruct (turn b i x z) as [x' [r|e]]; cbn [fst snd bind] in *; [|split; [exact G'|reflexivity]].
      destruct (IH x' G') as [G'' E']. destruct (loop b i x' zs) as [x'' [rs|e]]; cbn [fst snd] in *;
        rewrite <- E'; cbn [bind]; split; try exact G''; reflexivity.
    Qed.

    Notation exec := (lg_execute dset mset astro growth root sigma8 variance rd cfg).
    Lemma exec_good x b : good x -> good (fst (exec x b)) /\ snd (exec x b) = snd (exec x0 b).
    Proof.
      intros G. unfold lg_execute. destruct (lg_read astro cfg b) as [i|e]; [|split; [exact G|reflexivity]].
      destruct (loop_good b i (lc_z cfg) x G) as [G1 E1]. destruct (loop_good b i (lc_z cfg) x0 good_start) as [_ E2].
      destruct (loop b i x (lc_z cfg)) as [x' [rs|e]], (loop b i x0 (lc_z cfg)) as [y' [rs'|e']]; cbn [fst snd] in *;
        split; try exact G1; rewrite <- E2 in E1; congruence.
    Qed.
    Lemma exec_rows b : snd (exec x0 b) =
      (i <- lg_read astro cfg b ;; rows <- rows_of b i (lc_z cfg) ;; lg_tables rd b i rows).
    Proof.
      unfold lg_execute. destruct (lg_read astro cfg b) as [i|e]; [|reflexivity]. cbn [bind].
      destruct (loop_good b i (lc_z cfg) x0 good_start) as [_ E].
      destruct (loop b i x0 (lc_z cfg)) as [x' [rs|e]]; cbn [fst snd] in *; rewrite <- E; reflexivity.
    Qed.

    Lemma chain_fresh : forall bs x, good x ->
      lg_chain dset mset astro growth root sigma8 variance rd cfg x bs = map (fun b => snd (exec x0 b)) bs.
    Proof.
      induction bs as [|b bs IH]; intros x G; [reflexivity|]. cbn [lg_chain map].
      destruct (exec_good x b G) as [G' E]. destruct (exec x b) as [x' r]; cbn [fst snd] in *.
      rewrite E, (IH x' G'). reflexivity.
    Qed.

    Lemma rows_split b i : forall zs rows, rows_of b i zs = Ok rows <->
      List.length rows = List.length zs /\
      forall j, (j < List.length zs)%nat -> exists r, nth_error rows j = Some r /\ snd (turn b i x0 (nth j zs 0)) = Ok r.
    Proof.
      induction zs as [|z zs IH]; intros rows; cbn [rows_of].
      - split; [intros E; injection E as <-; split; [reflexivity|intros j Hj; cbn in Hj; lia]|].
        intros [L _]. destruct rows; [reflexivity|discriminate].
      - split.
        + destruct (snd (turn b i x0 z)) as [r|e] eqn:T; cbn [bind]; [|discriminate].
          destruct (rows_of b i zs) as [rs|e] eqn:Q; cbn [bind]; [|discriminate]. intros E; injection E as <-.
          destruct (proj1 (IH rs) eq_refl) as [L N]. split; [cbn; lia|].
          intros [|j] Hj; [exists r; split; [reflexivity|exact T]|]. cbn in Hj. apply N. lia.
        + intros [L N]. destruct rows as [|r rs]; [discriminate|].
          destruct (N 0%nat) as (r' & Er & Et); [cbn; lia|]. injection Er as <-. cbn [nth] in Et. rewrite Et. cbn [bind].
          rewrite (proj2 (IH rs)); [reflexivity|]. split; [cbn in L; lia|].
          intros j Hj. destruct (N (S j)) as (r' & Er & Et'); [cbn; lia|]. exists r'. split; assumption.
    Qed.
    Lemma rows_fail b i : forall zs, (exists rows, rows_of b i zs = Ok rows) <->
      forall z, In z zs -> exists r, snd (turn b i x0 z) = Ok r.
    Proof.
      induction zs as [|z zs IH]; cbn [rows_of].
      - split; [intros _ z []|intros _; eexists; reflexivity].
      - split.
        + intros [rows E]. destruct (snd (turn b i x0 z)) as [r|e] eqn:T; cbn [bind] in E; [|discriminate].
          destruct (rows_of b i zs) as [rs|e]; cbn [bind] in E; [|discriminate].
          intros z' [<-|I]; [exists r; exact T|]. apply (proj1 IH); [eexists; reflexivity|exact I].
        + intros Hz. destruct (Hz z (or_introl eq_refl)) as [r ->]. cbn [bind].
          destruct (proj2 IH) as [rs ->]; [intros z' I; apply Hz; right; exact I|]. eexists; reflexivity.
    Qed.
  End Turn.
End Carry.
