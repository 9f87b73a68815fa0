(** The correction for the cosmology on the block, after each of the projection modules. *)
From Coq Require Import ZArith Ascii Decimal DecimalString.
From Verif Require Import Base Quad Interp FftModel RsModel RsSpec RsFacts2 RsFacts3 OgataModel PipeModel PipeFacts OptModel ChainModel ChainSpec ChainFacts ChainFacts2.
Open Scope R_scope.

Lemma number_ok b n : numeric (b "cosmological_parameters"%string n) -> number b n = Ok (num_of (b "cosmological_parameters"%string n)).
Proof. unfold number, num_of. intros [(x & ->)|(k & ->)]; reflexivity. Qed.
Lemma number_inv b n x : number b n = Ok x -> numeric (b "cosmological_parameters"%string n).
Proof. unfold number, numeric. destruct (b "cosmological_parameters"%string n) as [[]|]; try discriminate; eauto. Qed.
Theorem arguments_iff b : (has_cosmology b -> run_arguments b = Ok (cosmo_args b)) /\ (forall l, run_arguments b = Ok l -> has_cosmology b).
Proof.
  split.
  - intros [H T]. unfold run_arguments, cosmo_args. 
    rewrite (number_ok b "hubble"), (number_ok b "omega_b"), (number_ok b "omega_m"), (number_ok b "mnu"), (number_ok b "w"), (number_ok b "wa") by (apply H; cbn; tauto). cbn [bind].
    destruct (b "cosmological_parameters"%string "tcmb"%string) eqn:E.
    + rewrite (number_ok b "tcmb") by (rewrite E; destruct T; [discriminate|assumption]). rewrite E. reflexivity.
    + reflexivity.
  - intros l H. unfold run_arguments in H.
    destruct (match b "cosmological_parameters"%string "tcmb"%string with None => _ | Some _ => _ end) as [t|] eqn:T; [|discriminate]. cbn [bind] in H.
    do 6 match type of H with context[number b ?n] => let E := fresh "N" in destruct (number b n) eqn:E; [|discriminate]; apply number_inv in E; cbn [bind] in H end.
    split.
    + intros n I. cbn in I. repeat (destruct I as [<-|I]; [assumption|]). destruct I.
    + destruct (b "cosmological_parameters"%string "tcmb"%string) eqn:E; [|now left]. right. rewrite <- E. now apply (number_inv b "tcmb" t).
Qed.

Section Loop.
  Variables (run data : cosmo) (sec ty : string).
  Hypothesis known : ty = "wp"%string \/ ty = "ds"%string.
  Lemma ratio_known zi : exists rc, ratio_corr run data ty zi = Ok rc.
  Proof. unfold ratio_corr. destruct known as [-> | ->]; cbn; eauto. Qed.
  Lemma correct_bins_spec z : forall i b (f : nat -> list R) arr,
    (forall j, (i <= j < i + List.length z)%nat -> b sec (bin_key (j + 1)) = Some (BArr (f j))) -> b sec "rp"%string = Some (BArr arr) ->
    exists b', correct_bins run data sec ty z i b = (b', Ok tt) /\
      (forall j, (i <= j < i + List.length z)%nat -> exists rc, ratio_corr run data ty (nth (j - i) z 0) = Ok rc /\ b' sec (bin_key (j + 1)) = Some (BArr (map (fun x => x * rc) (f j)))) /\
      b' sec "rp"%string = Some (BArr (map (fun x => x * prod (map (ratio_rp run data) z)) arr)) /\
      forall s k, s <> sec \/ (k <> "rp"%string /\ forall j, (i <= j < i + List.length z)%nat -> k <> bin_key (j + 1)) -> b' s k = b s k.
  Proof.
    induction z as [|zi z IH]; intros i b f arr H R.
    - exists b. split; [reflexivity|]. split; [intros; cbn in *; lia|]. split; [|reflexivity]. rewrite R. do 2 f_equal. cbn.
      rewrite <- map_id at 1. apply map_ext. intro x. ring.
    - cbn [correct_bins]. unfold array. rewrite (H i) by (cbn; lia). cbn [bind]. rewrite R. cbn [bind]. destruct (ratio_known zi) as (rc & RC). rewrite RC. cbn [bind].
      set (b1 := bput _ _ "rp" _). destruct (IH (S i) b1 f (map (fun x => x * ratio_rp run data zi) arr)) as (b' & E & B & P & F).
      { intros j Lj. unfold b1. rewrite !bput_other; [apply H; cbn; lia| |].
        - right. intro Q. apply bin_key_inj in Q. lia.
        - right. apply bin_key_not. exact I. }
      { apply bput_same. }
      exists b'. split; [exact E|]. split; [|split].
      + intros j Lj. cbn [List.length] in Lj. destruct (Nat.eq_dec j i) as [->|N].
        * exists rc. rewrite Nat.sub_diag. split; [exact RC|]. rewrite F.
          -- unfold b1. rewrite bput_other by (right; apply bin_key_not; exact I). apply bput_same.
          -- right. split; [apply bin_key_not; exact I|]. intros j' L' Q. apply bin_key_inj in Q. lia.
        * destruct (B j ltac:(lia)) as (rc' & R1 & R2). exists rc'. split; [|exact R2]. replace (j - i)%nat with (S (j - S i)) by lia. exact R1.
      + rewrite P. rewrite map_map. cbn [map prod fold_right]. do 2 f_equal. apply map_ext. intro x. unfold prod. ring.
      + intros s k D. rewrite F.
        * unfold b1. rewrite !bput_other; [reflexivity| |]; (destruct D as [D|[D1 D2]]; [now left|right]); [apply D2; cbn; lia|exact D1].
        * destruct D as [D|[D1 D2]]; [now left|right]. split; [exact D1|]. intros j Lj. apply D2. cbn. lia.
  Qed.
End Loop.

(** Execution on any section of the right form. *)
Section Execute.
  Variables (mk : list R -> cosmo) (data : cosmo) (sec : string) (z : list R) (b : dblock).
  Theorem correct_any nb ty f arr : b sec "nbin"%string = Some (BInt (Z.of_nat nb)) -> b sec "save_name"%string = Some (BStr ty) -> ty = "wp"%string \/ ty = "ds"%string ->
    (forall i, (i < nb)%nat -> b sec (nth_bin (S i)) = Some (BArr (f i))) -> b sec "rp"%string = Some (BArr arr) -> has_cosmology b -> List.length z = nb ->
    (forall zi, In zi z -> regular (mk (cosmo_args b)) zi /\ regular data zi) ->
    exists b', correct_execute mk data sec z b = (b', Ok tt) /\
      (forall i, (i < nb)%nat -> exists l, b' sec (nth_bin (S i)) = Some (BArr l) /\
        (ty = "wp"%string -> scaled (hubble (mk (cosmo_args b)) (nth i z 0)) (hubble data (nth i z 0)) l (f i)) /\
        (ty = "ds"%string -> scaled (c_h data * sigma_crit (mk (cosmo_args b)) (nth i z 0)) (c_h (mk (cosmo_args b)) * sigma_crit data (nth i z 0)) l (f i))) /\
      (exists l, b' sec "rp"%string = Some (BArr l) /\ scaled (prod (map (dist_h data) z)) (prod (map (dist_h (mk (cosmo_args b))) z)) l arr) /\
      forall s k, s <> sec \/ (k <> "rp"%string /\ forall i, (1 <= i <= nb)%nat -> k <> nth_bin i) -> b' s k = b s k.
  Proof.
    intros N S K B A C L G. unfold correct_execute. rewrite N, S. cbn [bind]. rewrite L, Z.eqb_refl. cbn [negb]. rewrite (proj1 (arguments_iff b) C). cbn [bind].
    destruct (correct_bins_spec (mk (cosmo_args b)) data sec ty K z 0 b f arr) as (b' & E & BI & RP & F).
    { intros j Lj. replace (j + 1)%nat with (Datatypes.S j) by lia. apply B. lia. }
    { exact A. }
    exists b'. split; [exact E|].
    assert (SC : forall (q u v : R) l, q * u = v -> scaled u v (map (fun x => x * q) l) l).
    { intros q u v l Q. split; [apply map_length|]. intros i Li. rewrite map_length in Li. rewrite (nth_indep _ 0 (0 * q)) by now rewrite map_length.
      rewrite (map_nth (fun x => x * q)). rewrite <- Q. ring. }
    split; [|split].
    - intros i Li. destruct (BI i ltac:(lia)) as (rc & R1 & R2). rewrite Nat.sub_0_r in R1. exists (map (fun x => x * rc) (f i)).
      split; [rewrite <- R2, <- bin_key_nth; now replace (Datatypes.S i) with (i + 1)%nat by lia|].
      destruct (G _ (nth_In z 0 ltac:(rewrite L; exact Li))) as ((Q1 & Q2 & Q3 & Q4 & Q5 & Q6) & (P1 & P2 & P3 & P4 & P5 & P6)). split; intros ->; cbn in R1; injection R1 as <-; apply SC.
      + unfold hubble. field. split; assumption.
      + unfold sigma_crit. field. repeat split; assumption.
    - eexists. split; [exact RP|]. apply SC. now apply rp_values.
    - intros s k D. apply F. destruct D as [D|[D1 D2]]; [now left|right]. split; [exact D1|]. intros j Lj. rewrite bin_key_nth. apply D2. lia.
  Qed.
  Theorem correct_refuses nb ty : b sec "nbin"%string = Some (BInt nb) -> b sec "save_name"%string = Some (BStr ty) ->
    (Z.of_nat (List.length z) <> nb -> correct_execute mk data sec z b = (b, Err "ValueError")) /\
    (ty <> "wp"%string -> ty <> "ds"%string -> (0 < nb)%Z -> exists e, correct_execute mk data sec z b = (b, Err e)) /\
    (ty <> "wp"%string -> ty <> "ds"%string -> (0 < nb)%Z -> has_cosmology b -> (exists l, b sec (nth_bin 1) = Some (BArr l)) -> (exists l, b sec "rp"%string = Some (BArr l)) ->
       correct_execute mk data sec z b = (b, Err "ValueError")).
  Proof.
    intros N S. unfold correct_execute. rewrite N, S. cbn [bind].
    assert (RC : forall run zi, ty <> "wp"%string -> ty <> "ds"%string -> ratio_corr run data ty zi = Err "ValueError").
    { intros run zi N1 N2. unfold ratio_corr. destruct (String.eqb_spec ty "wp"); [contradiction|]. destruct (String.eqb_spec ty "ds"); [contradiction|reflexivity]. }
    split; [|split].
    - intro H. destruct (Z.eqb_spec (Z.of_nat (List.length z)) nb); [contradiction|reflexivity].
    - intros N1 N2 P. destruct (Z.eqb_spec (Z.of_nat (List.length z)) nb) as [E|]; cbn [negb]; [|eauto].
      destruct (run_arguments b); cbn [bind]; [|eauto]. destruct z as [|zi t]; [cbn in E; lia|]. cbn [correct_bins].
      destruct (array b sec (bin_key (0 + 1))); cbn [bind]; [|eauto]. destruct (array b sec "rp"); cbn [bind]; [|eauto]. rewrite RC by assumption. cbn [bind]. eauto.
    - intros N1 N2 P C (l1 & B1) (l2 & B2). destruct (Z.eqb_spec (Z.of_nat (List.length z)) nb) as [E|]; cbn [negb]; [|reflexivity].
      rewrite (proj1 (arguments_iff b) C). cbn [bind]. destruct z as [|zi t]; [cbn in E; lia|]. cbn [correct_bins].
      unfold array. change (bin_key (0 + 1)) with (nth_bin 1). rewrite B1. cbn [bind]. rewrite B2. cbn [bind]. now rewrite RC by assumption.
  Qed.
End Execute.

(** After the FFTLog projection. *)
Theorem after_fft T p b b1 mk data z : fft_execute T p b = (b1, Ok tt) -> q_type p = "wp"%string \/ q_type p = "ds"%string -> has_cosmology b1 ->
  exists nb f arr, b1 (q_output p) "nbin"%string = Some (BInt (Z.of_nat nb)) /\ b1 (q_output p) "rp"%string = Some (BArr arr) /\
    (forall i, (i < nb)%nat -> b1 (q_output p) (nth_bin (S i)) = Some (BArr (f i))) /\
    (List.length z <> nb -> correct_execute mk data (q_output p) z b1 = (b1, Err "ValueError")) /\
    (List.length z = nb -> (forall zi, In zi z -> regular (mk (cosmo_args b1)) zi /\ regular data zi) ->
     exists b2, correct_execute mk data (q_output p) z b1 = (b2, Ok tt) /\
      (forall i, (i < nb)%nat -> exists l, b2 (q_output p) (nth_bin (S i)) = Some (BArr l) /\
        (q_type p = "wp"%string -> scaled (hubble (mk (cosmo_args b1)) (nth i z 0)) (hubble data (nth i z 0)) l (f i)) /\
        (q_type p = "ds"%string -> scaled (c_h data * sigma_crit (mk (cosmo_args b1)) (nth i z 0)) (c_h (mk (cosmo_args b1)) * sigma_crit data (nth i z 0)) l (f i))) /\
      (exists l, b2 (q_output p) "rp"%string = Some (BArr l) /\ scaled (prod (map (dist_h data) z)) (prod (map (dist_h (mk (cosmo_args b1))) z)) l arr) /\
      forall s k, s <> q_output p \/ (k <> "rp"%string /\ forall i, (1 <= i <= nb)%nat -> k <> nth_bin i) -> b2 s k = b1 s k).
Proof.
  intros H K C. apply fft_refines in H as (rho & r & _ & _ & W1 & W2 & W3 & W4 & W5 & W6 & W7 & _).
  exists (List.length (snd r)), (fun i => nth i (snd r) []), (fst r). split; [exact W3|]. split; [exact W5|]. split; [exact W2|]. split.
  - intro N. destruct (correct_refuses mk data (q_output p) z b1 _ _ W3 W7) as (R1 & _ & _). apply R1. intro E. apply N. now apply Nat2Z.inj in E.
  - intros L G. exact (correct_any mk data (q_output p) z b1 _ _ _ _ W3 W7 K W2 W5 C L G).
Qed.
(** After the quadrature projection. *)
Theorem after_quad ht O p b b1 mk data z : quad_execute ht O p b = (b1, Ok tt) ->
  (exists e, correct_execute mk data (q_output p) z b1 = (b1, Err e)) /\
  (has_cosmology b1 -> correct_execute mk data (q_output p) z b1 = (b1, Err "ValueError")).
Proof.
  intro H. apply quad_refines in H as (r & _ & W1 & W2 & W3 & W4 & W5 & W6 & W7 & _).
  destruct (correct_refuses mk data (q_output p) z b1 _ _ W3 W7) as (_ & R2 & R3). split.
  - apply R2; [discriminate|discriminate|lia].
  - intro C. apply R3; [discriminate|discriminate|lia|exact C| |eauto]. eexists. apply (W2 0%nat). lia.
Qed.
