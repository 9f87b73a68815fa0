(** Lemmas about add_and_upsample.py: the runs of the module. *)
From Coq Require Import ZArith Lia Lra.
From Verif Require Import Base Interp FftModel RsModel PipeModel PipeFacts OptModel ChainModel PredModel PredSpec AupModel AupSpec AupFacts AupFacts2.
Open Scope string_scope.

Definition all5 : list spectrum := [GG; GM; MI; II; GI].
Definition wanting (w : string) (c : aconfig) : list spectrum := filter (fun s => is_str w (option_of c s)) all5.
Definition keys (w : string) (c : aconfig) (n : Z) : list (nat * spectrum) := list_prod (seq 0 (Z.to_nat n)) (wanting w c).
Definition ejob (c : aconfig) (n : Z) (f : fill) (ze ke : list R) (p : nat * spectrum) : job :=
  let x := bin_suffix n (fst p) in
  {| j_try := false; j_out := name_of (snd p) ++ x; j_ins := [name_of (snd p) ++ (a_ext c ++ x)];
     j_val := fun b => extrapolated b (name_of (snd p) ++ (a_ext c ++ x)) f ze ke |}.
Definition ajob (c : aconfig) (n : Z) (f : fill) (ze ke : list R) (p : nat * spectrum) : job :=
  let x := bin_suffix n (fst p) in
  {| j_try := false; j_out := name_of (snd p) ++ x; j_ins := [name_of (snd p) ++ (a_red c ++ x); name_of (snd p) ++ (a_blue c ++ x)];
     j_val := fun b => match a_fred c with
                       | Some (zf, ff) => combined zf ff b (name_of (snd p)) (a_red c ++ x) (a_blue c ++ x) f ze ke
                       | None => Err "ValueError"
                       end |}.
Definition mjob (try : bool) (sec : string) (ze ke : list R) : job :=
  {| j_try := try; j_out := sec; j_ins := [sec]; j_val := fun b => extrapolated b sec Extrapolate ze ke |}.
Definition mjobs (c : aconfig) (ze ke : list R) : list job :=
  if is_str "extrapolate" (a_mm c) then [mjob false "matter_power_nl" ze ke; mjob true "matter_power_nl_mead" ze ke] else [].
Definition ejobs (c : aconfig) (n : Z) (f : fill) (ze ke : list R) : list job := map (ejob c n f ze ke) (keys "extrapolate" c n).
Definition ajobs (c : aconfig) (n : Z) (f : fill) (ze ke : list R) : list job := map (ajob c n f ze ke) (keys "add_and_extrapolate" c n).

Lemma pick {B} (w : string) (c : aconfig) (F : string -> B) :
  flat_map (fun p => if is_str w (fst p) then [F (snd p)] else []) (spectra_options c) = map (fun s => F (name_of s)) (wanting w c).
Proof.
  unfold spectra_options, wanting, all5. cbn [flat_map filter fst snd option_of].
  destruct (is_str w (a_gg c)), (is_str w (a_gm c)), (is_str w (a_mI c)), (is_str w (a_II c)), (is_str w (a_gI c)); reflexivity.
Qed.
Lemma by_keys {B} (G : nat -> spectrum -> B) l K : flat_map (fun nb => map (G nb) K) l = map (fun p => G (fst p) (snd p)) (list_prod l K).
Proof. induction l as [|x l IH]; [reflexivity|]. cbn [flat_map list_prod]. rewrite map_app, IH, map_map. reflexivity. Qed.
Lemma eloop over c n f ze ke : extrapolate_loop over c n f ze ke = map (do_job over ze ke) (ejobs c n f ze ke).
Proof.
  unfold extrapolate_loop, ejobs, keys. rewrite map_map.
  rewrite <- (by_keys (fun nb s => do_job over ze ke (ejob c n f ze ke (nb, s)))) with (l := seq 0 (Z.to_nat n)).
  apply flat_map_ext. intro nb.
  rewrite (pick "extrapolate" c (fun name b => extrapolate_power over b (bin_suffix n nb) (a_ext c ++ bin_suffix n nb) name ze ke f)). reflexivity.
Qed.
Lemma aloop over c n f ze ke : add_loop over c n f ze ke = map (do_job over ze ke) (ajobs c n f ze ke).
Proof.
  unfold add_loop, ajobs, keys. rewrite map_map.
  rewrite <- (by_keys (fun nb s => do_job over ze ke (ajob c n f ze ke (nb, s)))) with (l := seq 0 (Z.to_nat n)).
  apply flat_map_ext. intro nb.
  rewrite (pick "add_and_extrapolate" c (fun name b => add_power over c b (bin_suffix n nb) (a_red c ++ bin_suffix n nb) (a_blue c ++ bin_suffix n nb) name ze ke f)).
  apply map_ext. intro s. unfold add_power, do_job, ajob. cbn [j_try j_out j_val snd fst]. destruct (a_fred c) as [[zf ff]|]; reflexivity.
Qed.
Lemma mpart over c ze ke b : matter_part over c ze ke b = in_turn (map (do_job over ze ke) (mjobs c ze ke)) b.
Proof. unfold matter_part, mjobs. destruct (is_str _ _); reflexivity. Qed.

(** ** Names *)
Lemma name_split s s' x y : name_of s ++ x = name_of s' ++ y -> s = s' /\ x = y.
Proof.
  destruct s, s'; cbn [name_of append]; intro H; try discriminate H;
    try (split; [reflexivity|]; repeat (injection H as H); exact H); exfalso; repeat (injection H as H; try discriminate H).
Qed.
Lemma suffix_split n i j a : (i < Z.to_nat n)%nat -> (j < Z.to_nat n)%nat -> bin_suffix n i = a ++ bin_suffix n j -> i = j.
Proof.
  unfold bin_suffix. destruct (Z.eqb_spec n 1) as [->|N]; [intros; change (Z.to_nat 1) with 1%nat in *; lia|]. intros _ _ H.
  change ("" ++ "_" ++ dec (i + 1) = a ++ "_" ++ dec (j + 1)) in H. apply underscore_split in H. destruct H as [_ H]. lia.
Qed.
Lemma suffix_inj n i j : (i < Z.to_nat n)%nat -> (j < Z.to_nat n)%nat -> bin_suffix n i = bin_suffix n j -> i = j.
Proof. intros A B H. now apply (suffix_split n i j "" A B). Qed.
Lemma keys_in w c n p : In p (keys w c n) <-> (fst p < Z.to_nat n)%nat /\ is_str w (option_of c (snd p)) = true.
Proof.
  unfold keys. destruct p as [i s]. rewrite in_prod_iff, in_seq. unfold wanting. rewrite filter_In. cbn [fst snd]. split.
  - intros (A & _ & B). split; [lia|exact B].
  - intros (A & B). split; [lia|]. split; [destruct s; cbn; tauto|exact B].
Qed.
Lemma is_str_iff w v : is_str w v = true <-> v = OStr w.
Proof. destruct v; cbn; try (split; discriminate). rewrite String.eqb_eq. split; [now intros ->|intro H; now injection H]. Qed.
Lemma asks_iff w c : asks w c = true <-> exists s, option_of c s = OStr w.
Proof.
  unfold asks. rewrite existsb_exists. split.
  - intros (p & Hp & E). apply is_str_iff in E. cbn in Hp. destruct Hp as [<-|[<-|[<-|[<-|[<-|[]]]]]]; cbn in E;
      [exists GG|exists GM|exists MI|exists II|exists GI]; exact E.
  - intros (s & E). exists (option_of c s, name_of s). split; [destruct s; cbn; tauto|]. apply is_str_iff. exact E.
Qed.
Lemma keys_none w c n : asks w c = false -> keys w c n = [].
Proof.
  intros H. destruct (keys w c n) as [|p l] eqn:E; [reflexivity|]. exfalso. assert (I : In p (keys w c n)) by (rewrite E; now left).
  apply keys_in in I. destruct I as [_ I]. apply is_str_iff in I. rewrite (proj2 (asks_iff w c)) in H; [discriminate|]. now exists (snd p).
Qed.
Lemma NoDup_prod {A B} (l : list A) (k : list B) : NoDup l -> NoDup k -> NoDup (list_prod l k).
Proof.
  intros H K. induction H as [|x l N H IH]; [constructor|]. cbn [list_prod].
  assert (P : NoDup (map (pair x) k)).
  { clear -K. induction K as [|y k N K IH]; [constructor|]. cbn. constructor; [|exact IH]. intros I. apply in_map_iff in I. destruct I as (y' & E & I). injection E as ->. contradiction. }
  assert (D : forall p, In p (map (pair x) k) -> ~ In p (list_prod l k)).
  { intros [a b'] I J. apply in_map_iff in I. destruct I as (y & I & _). injection I as <- <-. apply in_prod_iff in J. destruct J as [J _]. contradiction. }
  change (map (fun y : B => (x, y)) k) with (map (pair x) k). revert P D. generalize (map (pair x) k). intros q. induction q as [|p q IHq]; intros P D; [exact IH|]. cbn. inversion P; subst. constructor.
  - intros I. apply in_app_or in I. destruct I as [I|I]; [contradiction|]. now apply (D p (or_introl eq_refl)).
  - apply IHq; [assumption|]. intros; apply D. now right.
Qed.
Lemma keys_nodup w c n : NoDup (keys w c n).
Proof. apply NoDup_prod; [apply seq_NoDup|]. apply NoDup_filter. unfold all5. repeat constructor; cbn; intuition discriminate. Qed.

Lemma NoDup_outs {A} (f : A -> job) l : NoDup l -> (forall x y, In x l -> In y l -> j_out (f x) = j_out (f y) -> x = y) -> NoDup (map j_out (map f l)).
Proof.
  intros H I. rewrite map_map. induction H as [|x l N H IH]; [constructor|]. cbn. constructor.
  - intros J. apply in_map_iff in J. destruct J as (y & E & J). apply N. rewrite <- (I y x); [exact J|now right|now left|exact E].
  - apply IH. intros; apply I; [now right|now right|assumption].
Qed.
Lemma NoDup_app_intro {A} (l k : list A) : NoDup l -> NoDup k -> (forall x, In x l -> ~ In x k) -> NoDup (l ++ k).
Proof.
  intros H K D. induction H as [|x l N H IH]; [exact K|]. cbn. constructor.
  - intros I. apply in_app_or in I. destruct I as [I|I]; [contradiction|]. now apply (D x (or_introl eq_refl)).
  - apply IH. intros; apply D. now right.
Qed.
Lemma nl_name s x t : name_of s ++ x <> "matter_power_nl" ++ t.
Proof. destruct s; cbn; intro H; repeat (injection H as H; try discriminate H); discriminate H. Qed.

(** ** The statements do not see each other *)
Lemma array_local b1 b2 s n : b1 s n = b2 s n -> array b1 s n = array b2 s n.
Proof. unfold array. now intros ->. Qed.
Lemma table_local b1 b2 s n : b1 s n = b2 s n -> table_at b1 s n = table_at b2 s n.
Proof. unfold table_at. now intros ->. Qed.
Lemma extrapolated_local b1 b2 s f ze ke : (forall n, b1 s n = b2 s n) -> extrapolated b1 s f ze ke = extrapolated b2 s f ze ke.
Proof. intros H. unfold extrapolated. rewrite (array_local b1 b2 s "k_h"), (array_local b1 b2 s "z"), (table_local b1 b2 s "p_k") by apply H. reflexivity. Qed.
Lemma combined_local zf ff b1 b2 sec red blue f ze ke : (forall n, b1 (sec ++ red) n = b2 (sec ++ red) n) -> (forall n, b1 (sec ++ blue) n = b2 (sec ++ blue) n) ->
  combined zf ff b1 sec red blue f ze ke = combined zf ff b2 sec red blue f ze ke.
Proof.
  intros H K. unfold combined.
  rewrite (array_local b1 b2 (sec ++ red) "k_h"), (array_local b1 b2 (sec ++ red) "z"), (table_local b1 b2 (sec ++ red) "p_k") by apply H.
  rewrite (table_local b1 b2 (sec ++ blue) "p_k") by apply K. reflexivity.
Qed.
Section Run.
  Variable over : bool.
  Variables (c : aconfig) (ze ke : list R) (n m : Z) (f g : fill).
  Definition run_jobs : list job := mjobs c ze ke ++ ejobs c n f ze ke ++ ajobs c m g ze ke.
  Lemma job_cases j : In j run_jobs ->
    (a_mm c = extrapolates /\ (j = mjob false "matter_power_nl" ze ke \/ j = mjob true "matter_power_nl_mead" ze ke)) \/
    (exists i s, (i < Z.to_nat n)%nat /\ option_of c s = extrapolates /\ j = ejob c n f ze ke (i, s)) \/
    (exists i s, (i < Z.to_nat m)%nat /\ option_of c s = adds /\ j = ajob c m g ze ke (i, s)).
  Proof.
    unfold run_jobs. rewrite !in_app_iff. intros [H|[H|H]].
    - left. unfold mjobs in H. destruct (is_str _ _) eqn:E; [|contradiction]. apply is_str_iff in E. split; [exact E|]. destruct H as [<-|[<-|[]]]; tauto.
    - right; left. unfold ejobs in H. apply in_map_iff in H. destruct H as ([i s] & <- & H). apply keys_in in H. cbn [fst snd] in H. destruct H as [H1 H2].
      apply is_str_iff in H2. exists i, s. repeat split; assumption.
    - right; right. unfold ajobs in H. apply in_map_iff in H. destruct H as ([i s] & <- & H). apply keys_in in H. cbn [fst snd] in H. destruct H as [H1 H2].
      apply is_str_iff in H2. exists i, s. repeat split; assumption.
  Qed.
  Lemma run_nodup : NoDup (map j_out run_jobs).
  Proof.
    unfold run_jobs. rewrite !map_app. apply NoDup_app_intro; [|apply NoDup_app_intro|].
    - unfold mjobs. destruct (is_str _ _); [|constructor]. repeat constructor; cbn; intuition discriminate.
    - unfold ejobs. apply NoDup_outs; [apply keys_nodup|]. intros [i s] [j s'] A B E. apply keys_in in A, B. cbn [fst snd] in A, B. cbn in E.
      apply name_split in E. destruct E as [-> E]. apply suffix_inj in E; [now subst|apply A|apply B].
    - unfold ajobs. apply NoDup_outs; [apply keys_nodup|]. intros [i s] [j s'] A B E. apply keys_in in A, B. cbn [fst snd] in A, B. cbn in E.
      apply name_split in E. destruct E as [-> E]. apply suffix_inj in E; [now subst|apply A|apply B].
    - intros x A B. apply in_map_iff in A, B. destruct A as (j1 & <- & A), B as (j2 & E & B). apply in_map_iff in A, B.
      destruct A as ([i s] & <- & A), B as ([i' s'] & <- & B). apply keys_in in A, B. cbn [fst snd] in A, B. cbn in E. apply name_split in E. destruct E as [-> _].
      destruct A as [_ A], B as [_ B]. apply is_str_iff in A, B. rewrite A in B. discriminate.
    - intros x A B. apply in_map_iff in A. destruct A as (j & <- & A). unfold mjobs in A. destruct (is_str _ _); [|contradiction]. 
      assert (X : exists t, j_out j = "matter_power_nl" ++ t) by (destruct A as [<-|[<-|[]]]; [now exists ""|now exists "_mead"]). destruct X as (t & X). rewrite X in B.
      apply in_app_or in B. destruct B as [B|B]; apply in_map_iff in B; destruct B as (j2 & E & B); apply in_map_iff in B; destruct B as ([i s] & <- & B); cbn in E; now apply nl_name in E.
  Qed.
  Lemma run_independent : independent run_jobs.
  Proof.
    split; [exact run_nodup|]. split.
    - intros j Hj. destruct (job_cases j Hj) as [(_ & [->| ->])|[(i & s & _ & _ & ->)|(i & s & _ & _ & ->)]]; intros b1 b2 H; cbn [mjob ejob ajob j_val fst snd].
      + apply extrapolated_local. intro k. apply H. now left.
      + apply extrapolated_local. intro k. apply H. now left.
      + apply extrapolated_local. intro k. apply H. now left.
      + destruct (a_fred c) as [[zf ff]|]; [|reflexivity]. apply combined_local; intro k; apply H; cbn; tauto.
    - intros j1 j2 H1 H2 I.
      destruct (job_cases j1 H1) as [(_ & [->| ->])|[(i & s & Hi & W & ->)|(i & s & Hi & W & ->)]];
      destruct (job_cases j2 H2) as [(_ & [->| ->])|[(i' & s' & Hi' & W' & ->)|(i' & s' & Hi' & W' & ->)]];
      cbn [mjob ejob ajob j_out j_ins In fst snd] in I |- *; destruct I as [I|I]; try (destruct I as [I|I]); try contradiction; try discriminate I; try reflexivity;
      try (exfalso; revert I; match goal with |- ?x = "matter_power_nl" -> _ => change "matter_power_nl" with ("matter_power_nl" ++ "") | |- ?x = "matter_power_nl_mead" -> _ => change "matter_power_nl_mead" with ("matter_power_nl" ++ "_mead")
                         | |- "matter_power_nl" = _ -> _ => intro I; symmetry in I; revert I; change "matter_power_nl" with ("matter_power_nl" ++ "")
                         | |- "matter_power_nl_mead" = _ -> _ => intro I; symmetry in I; revert I; change "matter_power_nl_mead" with ("matter_power_nl" ++ "_mead") end; intro I; now apply nl_name in I);
      symmetry in I; apply name_split in I; destruct I as [-> I];
      try (rewrite W in W'; discriminate W');
      (apply suffix_split in I; [now subst|assumption|assumption]).
  Qed.
End Run.
