(** Setup of predict_observable.py, and the observables the pipeline writes. *)
From Coq Require Import ZArith Ascii.
From Verif Require Import Base Spec Quad Interp QuadFacts InterpFacts BaseFacts FftModel RsModel PipeModel PipeSpec PipeFacts OptModel ChainModel ChainFacts
  PredModel PredSpec PredFacts PredFacts2 PredFacts3.
Open Scope R_scope.

Lemma bind_ok {A B} (r : res A) (f : A -> res B) y : bind r f = Ok y -> exists x, r = Ok x /\ f x = Ok y.
Proof. destruct r as [x|e]; cbn; intro H; [eauto|discriminate]. Qed.
Lemma obs_arrays_nth edges : forall lo hi n l, obs_arrays edges lo hi n = Ok l -> List.length hi = List.length lo -> List.length n = List.length lo ->
  List.length l = List.length lo /\
  forall i, (i < List.length lo)%nat -> obs_values edges (nth i lo 0) (nth i hi 0) (nth i n 0%Z) = Ok (nth i l []).
Proof.
  induction lo as [|a lo IH]; intros [|z hi] [|k n] l H L1 L2; cbn in L1, L2; try lia.
  - cbn in H. inversion H. split; [reflexivity|intros i Hi; cbn in Hi; lia].
  - cbn [obs_arrays] in H. apply bind_ok in H as (v & Hv & H). apply bind_ok in H as (t & Ht & H). inversion H; subst l.
    destruct (IH hi n t Ht ltac:(lia) ltac:(lia)) as [A B]. split; [cbn; lia|]. intros [|i] Hi; [exact Hv|]. apply B. cbn in Hi. lia.
Qed.
Lemma values_centres lo hi n q : obs_values true lo hi n = Ok q -> List.length q = Z.to_nat n /\
  forall j, (j < Z.to_nat n)%nat -> nth j q 0 = Rpower 10 (lo + (INR j + 1 / 2) * ((hi - lo) / INR (Z.to_nat n))).
Proof.
  unfold obs_values. destruct (Z.ltb (n + 1) 0); [discriminate|]. intro H. inversion H; subst q. rewrite map_length, seq_length. split; [reflexivity|].
  intros j Hj. rewrite (nth_map_lt _ _ 0%nat) by (rewrite seq_length; exact Hj). rewrite seq_nth by exact Hj. cbn [Nat.add].
  replace (Z.to_nat (n + 1)) with (Z.to_nat n + 1)%nat by lia. rewrite !edges_lin by lia. unfold pow10, ten, edge. f_equal. rewrite plus_INR. simpl (INR 1). field.
  apply not_0_INR. lia.
Qed.
Lemma values_logspace lo hi n q : obs_values false lo hi n = Ok q -> List.length q = Z.to_nat n /\
  forall j, (j < Z.to_nat n)%nat -> (2 <= Z.to_nat n)%nat -> nth j q 0 = Rpower 10 (lo + INR j * ((hi - lo) / INR (Z.to_nat n - 1))).
Proof.
  unfold obs_values. destruct (Z.ltb n 0); [discriminate|]. intro H. inversion H; subst q. rewrite map_length, seq_length. split; [reflexivity|].
  intros j Hj N. rewrite (nth_map_lt _ _ 0%nat) by (rewrite seq_length; exact Hj). rewrite seq_nth by exact Hj. cbn [Nat.add].
  unfold logspace, pow10, ten. now rewrite linspace_eq by lia.
Qed.

Section Setup.
  Variables missing wrong : string.
  Variable o : options.
  Variable suffixes : option (list string).
  Variable n_obs : res (list Z).
  Variable loadtxt : string -> res (list (R * R)).
  Variable data_cosmo : res cosmo.
  Notation setup := (pred_setup missing wrong o suffixes n_obs loadtxt data_cosmo).
  Lemma setup_parts c : setup = Ok c ->
    p_suffixes c = match suffixes with Some l => l | None => ["_1"%string] end /\
    (suffixes = None -> p_sample c = None) /\
    get_array missing o "log10_obs_min" = Ok (p_min c) /\ get_array missing o "log10_obs_max" = Ok (p_max c) /\
    get_array missing o "zmin" = Ok (p_zmin c) /\ get_array missing o "zmax" = Ok (p_zmax c) /\ n_obs = Ok (p_n c) /\
    List.length (p_min c) = List.length (p_suffixes c) /\ List.length (p_max c) = List.length (p_suffixes c) /\
    List.length (p_n c) = List.length (p_suffixes c) /\ (p_weighted c = true -> p_edges c = true) /\
    obs_arrays (p_edges c) (p_min c) (p_max c) (p_n c) = Ok (p_obs c).
  Proof.
    unfold pred_setup. intro H. apply bind_ok in H as (inp & H1 & H). apply bind_ok in H as (out & H2 & H). apply bind_ok in H as (cor & H3 & H).
    apply bind_ok in H as ([sfx smp] & H4 & H). apply bind_ok in H as (file & H5 & H). apply bind_ok in H as (wt & H6 & H).
    apply bind_ok in H as (lo & H7 & H). apply bind_ok in H as (hi & H8 & H). apply bind_ok in H as (zmin & H9 & H). apply bind_ok in H as (zmax & H10 & H).
    apply bind_ok in H as (n & H11 & H). apply bind_ok in H as (ed & H12 & H). cbn [fst snd] in H.
    destruct (Nat.eqb_spec (List.length lo) (List.length sfx)) as [L1|]; [|discriminate].
    destruct (Nat.eqb_spec (List.length hi) (List.length sfx)) as [L2|]; [|discriminate].
    destruct (Nat.eqb_spec (List.length n) (List.length sfx)) as [L3|]; [|discriminate]. cbn [andb negb] in H.
    apply bind_ok in H as (arr & H13 & H). apply bind_ok in H as (dist & H14 & H). apply bind_ok in H as (cos & H15 & H). inversion H; subst c. cbn.
    assert (S : sfx = match suffixes with Some l => l | None => ["_1"%string] end /\ (suffixes = None -> smp = None)).
    { destruct suffixes as [l|]; [apply bind_ok in H4 as (s & _ & H4)|]; inversion H4; auto. split; [reflexivity|discriminate]. }
    destruct S as [S1 S2]. repeat split; try assumption. intros ->. destruct ed; [reflexivity|discriminate].
  Qed.
  Lemma setup_lengths inp out cor smp file wt lo hi zmin zmax n ed :
    get_string missing wrong o "input_section_name" (Some "stellar_mass_function"%string) = Ok inp ->
    get_string missing wrong o "output_section_name" (Some "obs_out"%string) = Ok out ->
    get_bool missing wrong o "correct_cosmo" (Some false) = Ok cor ->
    (suffixes <> None -> get_string missing wrong o "sample" None = Ok smp) ->
    get_string missing wrong o "obs_dist_file" (Some ""%string) = Ok file ->
    get_bool missing wrong o "weighted_binning" (Some false) = Ok wt ->
    get_array missing o "log10_obs_min" = Ok lo -> get_array missing o "log10_obs_max" = Ok hi ->
    get_array missing o "zmin" = Ok zmin -> get_array missing o "zmax" = Ok zmax -> n_obs = Ok n ->
    get_bool missing wrong o "edges" (Some false) = Ok ed ->
    let k := List.length (match suffixes with Some l => l | None => ["_1"%string] end) in
    (List.length lo <> k \/ List.length hi <> k \/ List.length n <> k) \/
    (wt = true /\ ed = false /\ forall m, In m n -> (0 <= m)%Z) -> setup = Err "ValueError".
  Proof.
    intros H1 H2 H3 H4 H5 H6 H7 H8 H9 H10 H11 H12 k B. unfold pred_setup. rewrite H1, H2, H3. cbn [bind].
    set (ss := match suffixes with Some l => _ | None => _ end).
    assert (E : exists s, ss = Ok (match suffixes with Some l => l | None => ["_1"%string] end, s)).
    { unfold ss. destruct suffixes as [l|]; [rewrite H4 by discriminate; cbn [bind]|]; eexists; reflexivity. }
    destruct E as [s E]. rewrite E. cbn [bind]. rewrite H5, H6, H7, H8, H9, H10, H11, H12. cbn [bind fst snd]. fold k.
    destruct (Nat.eqb_spec (List.length lo) k) as [L1|]; [|reflexivity]. destruct (Nat.eqb_spec (List.length hi) k) as [L2|]; [|reflexivity].
    destruct (Nat.eqb_spec (List.length n) k) as [L3|]; [|reflexivity]. cbn [andb negb]. destruct B as [[?|[?|?]]|(-> & -> & N)]; [contradiction..|].
    assert (Q : exists l, obs_arrays false lo hi n = Ok l).
    { clear - N. revert hi n N. induction lo as [|a lo IH]; intros [|z hi] [|m n] N; try (eexists; reflexivity). cbn [obs_arrays].
      unfold obs_values. destruct (Z.ltb_spec m 0) as [C|_]; [specialize (N m (or_introl eq_refl)); lia|]. cbn [bind].
      destruct (IH hi n) as [l ->]; [intros x I; apply N; now right|]. eexists. reflexivity. }
    destruct Q as [l ->]. reflexivity.
  Qed.
End Setup.

(** ** From the pipeline *)
Definition obs_part (n : string) : Prop := In n ["obs_val"; "obs_func"; "obs_func_c"; "obs_func_s"; "z_bin"]%string.
Lemma key_sep n m i j : obs_key n (dec i) = obs_key m (dec j) -> n = m /\ i = j.
Proof. unfold obs_key. apply underscore_split. Qed.
Lemma save_other flat s i t b sec n : (sec <> s \/ forall m, obs_part m -> n <> obs_key m (dec (i + 1))) -> save_obs_bin flat s b i t sec n = b sec n.
Proof.
  intro H. assert (K : forall b m v, obs_part m -> bput b s (obs_key m (dec (i + 1))) v sec n = b sec n).
  { intros b0 m v P. apply bput_other. destruct H as [H|H]; [now left|right; now apply H]. }
  unfold save_obs_bin, put_axes_table. destruct flat; rewrite !K by (unfold obs_part; cbn; tauto); reflexivity.
Qed.
Lemma save_bins_other flat s sec n : forall l i b, (sec <> s \/ forall j m, (i <= j < i + List.length l)%nat -> obs_part m -> n <> obs_key m (dec (j + 1))) ->
  save_obs_bins flat s i l b sec n = b sec n.
Proof.
  induction l as [|t l IH]; intros i b H; [reflexivity|]. cbn [save_obs_bins]. rewrite IH.
  - apply save_other. destruct H as [H|H]; [now left|right]. intros m P. apply H; [cbn; lia|exact P].
  - destruct H as [H|H]; [now left|right]. intros j m L P. apply H; [cbn; lia|exact P].
Qed.
Lemma bin_cong flat s k t n b1 b2 : b1 s n = b2 s n -> save_obs_bin flat s b1 k t s n = save_obs_bin flat s b2 k t s n.
Proof.
  intro E. unfold save_obs_bin, put_axes_table. destruct flat; unfold bput; rewrite !String.eqb_refl; cbn [andb];
    repeat (match goal with |- context [if String.eqb ?a ?c then _ else _] => destruct (String.eqb a c) end; [reflexivity|]); exact E.
Qed.
Lemma save_bins_bin flat s n m k t0 : obs_part m -> n = obs_key m (dec (k + 1)) -> forall l i b, (i <= k < i + List.length l)%nat ->
  save_obs_bins flat s i l b s n = save_obs_bin flat s b k (nth (k - i) l t0) s n.
Proof.
  intros P -> . induction l as [|t l IH]; intros i b L; [cbn in L; lia|]. cbn [save_obs_bins]. destruct (Nat.eq_dec i k) as [->|N].
  - rewrite Nat.sub_diag. cbn [nth]. apply save_bins_other. right. intros j m' Lj _ E. apply key_sep in E as [_ E]. lia.
  - rewrite IH by (cbn in L; lia). replace (k - i)%nat with (S (k - S i)) by lia. cbn [nth].
    apply bin_cong. apply save_other. right. intros m' _ E. apply key_sep in E as [_ E]. lia.
Qed.
(** What the pipeline writes for bin [k] is what the module looks for under the suffix k + 1. *)
Lemma saved_table s l b k t0 : (k < List.length l)%nat -> let t := nth k l t0 in
  List.length (t_tot t) = List.length (t_z t) -> (forall r, In r (t_tot t) -> List.length r = List.length (t_obs t)) ->
  has_table (save_obs_block false s l b) s (dec (k + 1)) (t_z t) (t_obs t) (t_tot t).
Proof.
  intros Hk t L1 L2. unfold save_obs_block, has_table.
  change ("obs_val_" ++ dec (k + 1))%string with (obs_key "obs_val" (dec (k + 1))). change ("obs_func_" ++ dec (k + 1))%string with (obs_key "obs_func" (dec (k + 1))).
  change ("z_bin_" ++ dec (k + 1))%string with (obs_key "z_bin" (dec (k + 1))).
  rewrite (save_bins_bin false s _ "obs_val" k t0) by (try reflexivity; unfold obs_part; cbn; tauto || lia).
  rewrite (save_bins_bin false s _ "obs_func" k t0) by (try reflexivity; unfold obs_part; cbn; tauto || lia).
  rewrite (save_bins_bin false s _ "z_bin" k t0) by (try reflexivity; unfold obs_part; cbn; tauto || lia).
  rewrite Nat.sub_0_r. fold t. unfold save_obs_bin, put_axes_table.
  assert (D : forall m m', m <> m' -> obs_key m (dec (k + 1)) <> obs_key m' (dec (k + 1))) by (intros m m' N E; apply key_sep in E as [E _]; contradiction).
  repeat split; try assumption.
  - rewrite bput_other by (right; apply D; discriminate). apply bput_same.
  - rewrite !bput_other by (right; apply D; discriminate). apply bput_same.
  - rewrite !bput_other by (right; apply D; discriminate). apply bput_same.
Qed.
Lemma saved_flat s l b k t0 : (k < List.length l)%nat -> let t := nth k l t0 in
  List.length (nth 0 (t_tot t) []) = List.length (t_obs t) -> b s ("z_bin_" ++ dec (k + 1))%string = None ->
  has_flat (save_obs_block true s l b) s (dec (k + 1)) (t_obs t) (nth 0 (t_tot t) []).
Proof.
  intros Hk t L1 Z. unfold save_obs_block, has_flat.
  change ("obs_val_" ++ dec (k + 1))%string with (obs_key "obs_val" (dec (k + 1))). change ("obs_func_" ++ dec (k + 1))%string with (obs_key "obs_func" (dec (k + 1))).
  change ("z_bin_" ++ dec (k + 1))%string with (obs_key "z_bin" (dec (k + 1))) in *.
  rewrite (save_bins_bin true s _ "obs_val" k t0) by (try reflexivity; unfold obs_part; cbn; tauto || lia).
  rewrite (save_bins_bin true s _ "obs_func" k t0) by (try reflexivity; unfold obs_part; cbn; tauto || lia).
  rewrite (save_bins_bin true s _ "z_bin" k t0) by (try reflexivity; unfold obs_part; cbn; tauto || lia).
  rewrite Nat.sub_0_r. fold t. unfold save_obs_bin.
  assert (D : forall m m', m <> m' -> obs_key m (dec (k + 1)) <> obs_key m' (dec (k + 1))) by (intros m m' N E; apply key_sep in E as [E _]; contradiction).
  repeat split; try assumption.
  - rewrite !bput_other by (right; apply D; discriminate). apply bput_same.
  - rewrite !bput_other by (right; apply D; discriminate). apply bput_same.
  - rewrite !bput_other by (right; (apply D; discriminate) || (unfold obs_key; discriminate)). exact Z.
Qed.
(** Without the option suffixes the module asks for other names. *)
Lemma default_missing flat s l b zd mk c : p_in c = s -> p_suffixes c = ["_1"%string] -> p_cosmo c = None ->
  b s "obs_val__1"%string = None -> pred_execute zd mk c (save_obs_block flat s l b) = (save_obs_block flat s l b, Err "BlockNameNotFound").
Proof.
  intros I S C N. apply execute_fails; [|rewrite S; cbn; lia]. exists None. split; [unfold run_cosmo; now rewrite C|].
  unfold pred_bin, raw_bin. rewrite S, I. cbn [nth]. rewrite load_missing; [reflexivity|].
  unfold save_obs_block. rewrite save_bins_other.
  - rewrite bput_other by (right; discriminate). exact N.
  - right. intros j m _ P E. unfold obs_part in P. cbn [In] in P.
    assert (K : forall u, "obs_val__1"%string = (u ++ "_" ++ dec (j + 1))%string -> u = "obs_val_"%string).
    { intros u Eu. apply (underscore_split "obs_val_" u 1 (j + 1)) in Eu as [Eu _]. now symmetry. }
    apply K in E. destruct P as [<-|[<-|[<-|[<-|[<-|[]]]]]]; discriminate.
Qed.
