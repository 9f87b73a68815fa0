(** Lemmas about LrModel: setup, execute and what is read back. *)
From Coq Require Import ZArith Lia Lra.
From Coquelicot Require Import Complex.
From Verif Require Import Base Quad Interp FftModel PipeModel PipeFacts OptModel ChainModel PredModel MiniModel IaModel IaFacts UellModel AupModel AupSpec AupFacts AupFacts3 LiaModel LiaSpec LiaFacts LhModel LhSpec LhSpec2 LhFacts LhFacts2 LhFacts5 LhFacts6 LhFacts7 LhFacts10 LrModel LrSpec LrFacts.
Open Scope R_scope.

Lemma index_sampling size nmass : (1 <= nmass <= size)%nat -> sampling size (Z.of_nat nmass) (index_of size nmass).
Proof.
  intros H. unfold index_of, sampling. destruct (Nat.eqb_spec size nmass) as [E|E].
  - split; [destruct size; [lia|reflexivity]|]. split.
    { destruct size as [|n]; [lia|]. rewrite seq_S, last_last. lia. }
    rewrite seq_length. split; [lia|]. split; [|reflexivity].
    intros i j x y L X Y. assert (I : (i < size)%nat) by (rewrite <- (seq_length size 0); apply nth_error_Some; congruence). assert (J : (j < size)%nat) by (rewrite <- (seq_length size 0); apply nth_error_Some; congruence).
    rewrite (nth_error_nth' _ 0%nat), seq_nth in X by (rewrite ?seq_length; assumption). rewrite (nth_error_nth' _ 0%nat), seq_nth in Y by (rewrite ?seq_length; assumption). injection X as <-. injection Y as <-. lia.
  - set (f := (size / nmass)%nat). assert (F : (1 <= f)%nat) by (apply Nat.div_le_lower_bound; lia).
    split; [unfold kept; destruct size; [lia|reflexivity]|]. split; [apply kept_last; lia|]. split.
    { unfold kept. rewrite app_length. pose proof (slice_enough _ (seq 0 size) size nmass H (seq_length _ _)). fold f in H0. lia. }
    split; [apply kept_sorted; [exact F|reflexivity|lia]|]. intros Q. exfalso. apply E. lia.
Qed.
Lemma index_in size nmass i : (1 <= nmass <= size)%nat -> In i (index_of size nmass) -> (i < size)%nat.
Proof.
  intros H I. unfold index_of in I. destruct (Nat.eqb_spec size nmass); [apply in_seq in I; lia|].
  set (f := (size / nmass)%nat) in *. assert (F : (1 <= f)%nat) by (apply Nat.div_le_lower_bound; lia).
  unfold kept in I. apply in_app_or in I. destruct I as [I|I].
  - apply In_nth_error in I. destruct I as (m & I). rewrite slice_nth in I by exact F. apply nth_error_In in I. apply in_seq in I. lia.
  - destruct (appended size f); [|contradiction]. destruct I as [<-|[]]. lia.
Qed.

(** ** setup *)
Lemma whole_get missing wrong o n d v : whole o n d v -> get_int missing wrong o n (Some d) = Ok v.
Proof. unfold get_int. intros [H|[H ->]]; now rewrite H. Qed.
Lemma setup_runs missing wrong o sfx s : sat_options o sfx s ->
  lr_setup missing wrong o = if Z.ltb (sa_nk s) 0 then Err "ValueError" else if Z.ltb 11 (sa_ell_max s) then Err "ValueError" else if Z.eqb (sa_hankel s) 0 then Err "ZeroDivisionError" else
    Ok {| rc_nk := Z.to_nat (sa_nk s); rc_k := sat_k s; rc_nmass := sa_nmass s; rc_suffix := sfx; rc_hankel := sa_hankel s; rc_ell_max := sa_ell_max s |}.
Proof.
  intros (A & B & C & D & E & F & name & N & P). unfold lr_setup. rewrite (whole_get _ _ _ _ _ _ A). cbn [bind]. rewrite (number_gets missing wrong _ _ _ _ B). cbn [bind]. rewrite (number_gets missing wrong _ _ _ _ C). cbn [bind].
  rewrite (whole_get _ _ _ _ _ _ D). cbn [bind]. destruct (Z.ltb (sa_nk s) 0); [reflexivity|]. cbn [bind]. rewrite (LiaFacts.text_get _ _ _ _ _ _ N). cbn [bind].
  rewrite (whole_get _ _ _ _ _ _ E). cbn [bind]. destruct (Z.ltb 11 (sa_ell_max s)); [reflexivity|]. cbn [bind]. rewrite (whole_get _ _ _ _ _ _ F). cbn [bind].
  destruct (Z.eqb (sa_hankel s) 0); [reflexivity|]. cbn [bind]. rewrite (suffix_part _ _ P). reflexivity.
Qed.
Lemma setup_iff missing wrong o sfx s : sat_options o sfx s ->
  ((exists c, lr_setup missing wrong o = Ok c) <-> (0 <= sa_nk s /\ sa_ell_max s <= 11 /\ sa_hankel s <> 0)%Z).
Proof.
  intros A. rewrite (setup_runs missing wrong _ _ _ A). destruct (Z.ltb_spec (sa_nk s) 0); [split; [intros (? & ?); discriminate|lia]|].
  destruct (Z.ltb_spec 11 (sa_ell_max s)); [split; [intros (? & ?); discriminate|lia]|]. destruct (Z.eqb_spec (sa_hankel s) 0); [split; [intros (? & ?); discriminate|lia]|].
  split; [lia|]. intros _. eexists. reflexivity.
Qed.

Section Run.
  Variables (over : bool) (ht : Z -> R -> (R -> R) -> R -> R) (missing wrong : string) (o : options) (sfx : string) (s : satellites) (c : rconfig).
  Hypothesis O : sat_options o sfx s.
  Hypothesis C : lr_setup missing wrong o = Ok c.
  Lemma config_is : c = {| rc_nk := Z.to_nat (sa_nk s); rc_k := sat_k s; rc_nmass := sa_nmass s; rc_suffix := sfx; rc_hankel := sa_hankel s; rc_ell_max := sa_ell_max s |} /\ (sa_ell_max s <= 11)%Z.
  Proof.
    rewrite (setup_runs missing wrong _ _ _ O) in C. revert C. destruct (Z.ltb (sa_nk s) 0); [discriminate|]. destruct (Z.ltb_spec 11 (sa_ell_max s)); [discriminate|]. destruct (Z.eqb (sa_hankel s) 0); [discriminate|].
    intros H0. injection H0 as <-. split; [reflexivity|assumption].
  Qed.
  Definition raw : halos := {| ha_mass := sa_mass s; ha_c := sa_c s; ha_rs := sa_rs s; ha_rvir := sa_rvir s |}.
  Variable b : dblock.
  Hypothesis B : sat_halos b s.
  Hypothesis G : reads b (parameters_of sfx) "gamma_1h_radial_slope" (sa_slope s).
  Hypothesis A : b (satellite_section sfx) "alignment_1h"%string = Some (BArr (sa_amplitude s)).
  Lemma input_is : lr_input c b = (if Z.ltb (Z.of_nat (List.length (sa_mass s))) (sa_nmass s) then Err "ValueError" else
    h <- lr_downsample (sa_nmass s) raw ;; Ok {| ri_b := sa_slope s; ri_a := sa_amplitude s; ri_z := sa_z s; ri_halos := h |}).
  Proof.
    destruct config_is as [-> _]. destruct B as (B1 & B2 & B3 & B4 & B5). unfold lr_input. cbn [rc_suffix rc_nmass].
    change ("intrinsic_alignment_parameters" ++ sfx)%string with (parameters_of sfx). change ("ia_small_scale_alignment" ++ sfx)%string with (satellite_section sfx).
    rewrite (LhFacts5.reads_num _ _ _ _ G). cbn [bind]. unfold array, table_at. rewrite A, B1, B2, B3, B4, B5. cbn [bind]. now destruct (Z.ltb _ _).
  Qed.
  Hypothesis F : sat_fits s.
  Hypothesis N : (1 <= sa_nmass s <= Z.of_nat (List.length (sa_mass s)))%Z.
  Definition idx : list nat := index_of (List.length (sa_mass s)) (Z.to_nat (sa_nmass s)).
  Definition inp : rinput := {| ri_b := sa_slope s; ri_a := sa_amplitude s; ri_z := sa_z s; ri_halos := picked_halos idx raw |}.
  Lemma input_ok : lr_input c b = Ok inp.
  Proof.
    rewrite input_is. destruct (Z.ltb_spec (Z.of_nat (List.length (sa_mass s))) (sa_nmass s)); [lia|].
    destruct F as (F1 & F2 & F3 & F4 & F5 & F6 & F7). rewrite <- (Z2Nat.id (sa_nmass s)) at 1 by lia. rewrite down_kept; try assumption; [reflexivity|]. cbn [raw ha_mass]. lia.
  Qed.
  Lemma picked_length (t : list R) : List.length (picked 0 idx t) = List.length idx.
  Proof. apply map_length. Qed.
  Lemma shapes_ok : same_shape (ha_rs (ri_halos inp)) (ha_c (ri_halos inp)) = true.
  Proof.
    destruct F as (F1 & F2 & F3 & F4 & F5 & F6 & F7). unfold same_shape. cbn [inp ri_halos picked_halos ha_rs ha_c raw]. rewrite !map_length, F4, F6, Nat.eqb_refl. cbn [andb].
    apply forallb_forall. intros j J. apply in_seq in J. rewrite !(nth_indep _ [] (picked 0 idx [])) by (rewrite map_length; lia). rewrite !map_nth, !picked_length. apply Nat.eqb_refl.
  Qed.
  Lemma found_ok : lr_found inp = true.
  Proof.
    destruct F as (F1 & F2 & F3 & F4 & F5 & F6 & F7). unfold lr_found. cbn [inp ri_halos picked_halos ha_rs ha_c ha_rvir ha_mass raw ri_z ri_a]. rewrite !picked_length.
    apply forallb_forall. intros j J. apply in_seq in J. apply forallb_forall. intros m M. apply in_seq in M.
    rewrite !(nth_indep _ [] (picked 0 idx [])) by (rewrite map_length; lia). rewrite map_nth, picked_length, map_length, F1, F6.
    destruct (Nat.ltb_spec j (List.length (sa_z s))); [|lia]. destruct (Nat.ltb_spec m (List.length idx)); [reflexivity|lia].
  Qed.
  Lemma picked_at (t : list R) m : (m < List.length idx)%nat -> nth m (picked 0 idx t) 0 = nth (nth m idx 0%nat) t 0.
  Proof. intros H. unfold picked. rewrite (nth_indep _ 0 (nth 0 t 0)) by (rewrite map_length; exact H). apply (map_nth (fun i => nth i t 0)). Qed.
  Lemma picked_cell (t : list (list R)) j m : (j < List.length t)%nat -> (m < List.length idx)%nat -> entry (map (picked 0 idx) t) j m = cell t j (nth m idx 0%nat).
  Proof. intros J M. unfold entry, cell. rewrite (nth_indep _ [] (picked 0 idx [])) by (rewrite map_length; exact J). rewrite map_nth. now apply picked_at. Qed.
  Lemma uell_is j m k e : (j < List.length (sa_z s))%nat -> (m < List.length idx)%nat -> lr_uell ht c inp j m k e = sat_moment ht s j (nth m idx 0%nat) k e.
  Proof.
    intros J M. destruct F as (F1 & F2 & F3 & F4 & F5 & F6 & F7). destruct config_is as [-> _]. unfold lr_uell, sat_moment. cbn [rc_hankel inp ri_halos picked_halos ha_rs ha_c ha_rvir raw ri_a ri_b].
    rewrite !picked_cell by lia. unfold ChainModel.at_. rewrite picked_at by exact M. reflexivity.
  Qed.
  Definition table_puts (ang : list (nat * Complex.C)) : list lput :=
    (map (fun j => Grid "wkm" (sat_name "mass_" j sfx) (picked 0 idx (sa_mass s)) (sat_name "k_h_" j sfx) (row (Z.to_nat (sa_nk s)) (sat_k s)) (sat_name "w_km_" j sfx)
       (grid2 (List.length idx) (Z.to_nat (sa_nk s)) (fun m k => lr_wkm (lr_uell ht c inp j m (sat_k s k)) ang))) (seq 0 (List.length (sa_z s)))
     ++ [Plain "wkm" ("z" ++ sfx) (BArr (sa_z s))])%list.
  Lemma tables_are : lr_tables ht c b = bind (lr_angular (PI / 2) 0 (sa_slope s) (ell_values (sa_ell_max s))) (fun ang => Ok (table_puts ang)).
  Proof.
    unfold lr_tables. rewrite input_ok. cbn [bind]. rewrite shapes_ok. cbn [bind]. rewrite found_ok. destruct config_is as [E _].
    replace (rc_ell_max c) with (sa_ell_max s) by (now rewrite E). replace (rc_nk c) with (Z.to_nat (sa_nk s)) by (now rewrite E). replace (rc_k c) with (sat_k s) by (now rewrite E). replace (rc_suffix c) with sfx by (now rewrite E).
    cbn [inp ri_b ri_z ri_halos picked_halos ha_mass raw]. rewrite picked_length. unfold table_puts.
    destruct (ell_values (sa_ell_max s)) eqn:EL; cbn [bind]; reflexivity.
  Qed.
  Lemma tables_iff : (exists l, lr_tables ht c b = Ok l) <-> sa_slope s = 0 \/ sa_slope s = -2 \/ (sa_ell_max s < 0)%Z.
  Proof.
    rewrite tables_are. destruct config_is as [_ L]. split.
    - intros (l & H). destruct (Z.ltb_spec (sa_ell_max s) 0) as [K|K]; [tauto|]. destruct (Req_EM_T (sa_slope s) 0); [tauto|]. destruct (Req_EM_T (sa_slope s) (-2)); [tauto|]. exfalso.
      destruct (ell_values (sa_ell_max s)) as [|x l'] eqn:E.
      + pose proof (ell_length (sa_ell_max s)) as EL. rewrite E in EL. cbn in EL. assert (1 <= (sa_ell_max s + 2) / 2)%Z by (apply Z.div_le_lower_bound; lia). lia.
      + cbn [lr_angular] in H. unfold lr_f_ell in H. rewrite lr_f_other in H by assumption. discriminate.
    - intros H. destruct (Z.ltb_spec (sa_ell_max s) 0) as [K|K].
      + assert (E : ell_values (sa_ell_max s) = []). { apply length_zero_iff_nil. rewrite ell_length. assert ((sa_ell_max s + 2) / 2 < 1)%Z by (apply Z.div_lt_upper_bound; lia). lia. }
        rewrite E. cbn. eexists. reflexivity.
      + destruct (ang_runs (sa_slope s) (ell_values (sa_ell_max s))) as (a & ->); [intros x X; eapply ell_small; eassumption|destruct H as [H|[H|H]]; [now left|now right|lia]|]. cbn. eexists. reflexivity.
  Qed.
  Lemma tables_slope : sa_slope s <> 0 -> sa_slope s <> -2 -> (0 <= sa_ell_max s)%Z -> lr_execute over ht c b = (b, Err "TypeError").
  Proof.
    intros N0 N2 L. unfold lr_execute, read_write. rewrite tables_are.
    destruct (ell_values (sa_ell_max s)) as [|x l'] eqn:E.
    - pose proof (ell_length (sa_ell_max s)) as EL. rewrite E in EL. cbn in EL. assert (1 <= (sa_ell_max s + 2) / 2)%Z by (apply Z.div_le_lower_bound; lia). lia.
    - cbn [lr_angular]. unfold lr_f_ell. now rewrite lr_f_other by assumption.
  Qed.
End Run.
