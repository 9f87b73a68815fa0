(** Lemmas about LhModel: which runs succeed. *)
From Coq Require Import Ascii ZArith Lia Lra.
From Verif Require Import Base Quad Interp FftModel PipeModel PipeSpec PipeFacts PipeFacts6 HodModel OptModel ChainModel PredModel MiniModel AupModel AupSpec LiaModel LiaSpec LhModel LhSpec LhFacts LhFacts2 LhFacts3 LhFacts4 LhFacts5.
Open Scope R_scope.

Lemma then_congr r k k' : (snd r = Ok tt -> k (fst r) = k' (fst r)) -> then_ r k = then_ r k'.
Proof. unfold then_. destruct (snd r) as [[]|e]; [intros H; now apply H|reflexivity]. Qed.
Lemma then_assoc r k k' : then_ (then_ r k) k' = then_ r (fun b => then_ (k b) k').
Proof. unfold then_. destruct (snd r) as [[]|e] eqn:E; [reflexivity|]. cbn. reflexivity. Qed.
Lemma puts_app over l1 l2 b : do_puts over (l1 ++ l2) b = then_ (do_puts over l1 b) (do_puts over l2).
Proof.
  revert b. induction l1 as [|p l1 IH]; intros b; [reflexivity|]. cbn [app do_puts]. rewrite then_assoc. apply then_congr. intros _. apply IH.
Qed.
Lemma nodup_join {A} (l1 l2 : list A) : NoDup l1 -> NoDup l2 -> (forall x, In x l1 -> ~ In x l2) -> NoDup (l1 ++ l2).
Proof.
  induction 1 as [|a l1 N D IH]; intros D2 H; [exact D2|]. cbn. constructor.
  - intros I. apply in_app_or in I. destruct I as [I|I]; [contradiction|]. apply (H a); [now left|exact I].
  - apply IH; [exact D2|]. intros x I. apply H. now right.
Qed.
Lemma nodup_flat {A B} (f : A -> list B) l : NoDup l -> (forall x, In x l -> NoDup (f x)) -> (forall x y z, In x l -> In y l -> In z (f x) -> In z (f y) -> x = y) -> NoDup (flat_map f l).
Proof.
  induction 1 as [|a l N D IH]; intros F H; [constructor|]. cbn. apply nodup_join.
  - apply F. now left.
  - apply IH; [intros; apply F; now right|]. intros x y z I J. apply H; now right.
  - intros z Z I. apply in_flat_map in I. destruct I as (y & Y & I). assert (a = y) by (apply (H a y z); [now left|now right|exact Z|exact I]). now subst y.
Qed.
Lemma nodup_map {A B} (f : A -> B) l : (forall x y, In x l -> In y l -> f x = f y -> x = y) -> NoDup l -> NoDup (map f l).
Proof.
  intros H D. induction D as [|a l N D IH]; [constructor|]. cbn. constructor.
  - intros I. apply in_map_iff in I. destruct I as (x & E & I). assert (x = a) by (apply H; [now right|now left|exact E]). now subst x.
  - apply IH. intros x y I J. apply H; now right.
Qed.
Lemma map_flat {A B C} (g : B -> C) (f : A -> list B) l : map g (flat_map f l) = flat_map (fun x => map g (f x)) l.
Proof. induction l as [|a l IH]; [reflexivity|]. cbn. now rewrite map_app, IH. Qed.

Section Runs.
  Variable over : bool.
  Variable c : hconfig.
  Hypothesis apart_c : apart (h_section c) (h_obssec c) (h_values c).
  Let values_apart : h_values c <> h_section c /\ h_values c <> h_obssec c. Proof. apply (ap c apart_c). now left. Qed.
  Let hmf_apart : "hmf"%string <> h_section c /\ "hmf"%string <> h_obssec c. Proof. apply (ap c apart_c). cbn. tauto. Qed.
  Let bias_apart : "halobias"%string <> h_section c /\ "halobias"%string <> h_obssec c. Proof. apply (ap c apart_c). cbn. tauto. Qed.
  Let h_apart : "cosmological_parameters"%string <> h_section c /\ "cosmological_parameters"%string <> h_obssec c. Proof. apply (ap c apart_c). cbn. tauto. Qed.
  Lemma puts_agree l b : ours c (flat_map entries l) -> agree c b (fst (do_puts over l b)).
  Proof.
    intros O s n N M. destruct (do_puts over l b) as [b1 r] eqn:E. cbn [fst]. apply (do_puts_frame _ _ _ _ _ _ _ E). intros v I. now destruct (O _ _ _ I).
  Qed.
  Lemma bin_runs b b1 i names nb : agree c b b1 -> bin_reads c b i names nb -> lh_bin_execute over c i names nb b1 = do_puts over (bin_puts c b i names nb) b1.
  Proof.
    intros A (kw & l1 & l2 & P & O & B). unfold lh_bin_execute, bin_puts. rewrite P, O, B, puts_app. unfold read_write at 1.
    rewrite (occupation_agree c values_apart h_apart _ _ _ _ _ A), O. apply then_congr. intros _.
    rewrite (params_agree c values_apart _ _ _ _ A), P, puts_app. unfold read_write.
    assert (A' : agree c b (fst (do_puts over l1 b1))) by (apply (agree_trans c _ _ _ A), puts_agree; exact (occupation_ours c _ _ _ _ _ O)).
    now rewrite (biases_agree c bias_apart _ _ _ _ _ A'), B.
  Qed.
  Lemma bin_puts_ours b i names nb : ours c (flat_map entries (bin_puts c b i names nb)).
  Proof. apply (bin_ours c b i names nb). Qed.
  Lemma loop_runs b i names : forall l b1, agree c b b1 -> (forall nb, In nb l -> bin_reads c b i names nb) ->
    in_turn (map (lh_bin_execute over c i names) l) b1 = do_puts over (flat_map (bin_puts c b i names) l) b1.
  Proof.
    induction l as [|nb l IH]; intros b1 A R; [reflexivity|]. cbn [map in_turn flat_map]. rewrite puts_app, (bin_runs b) by (try assumption; apply R; now left).
    apply then_congr. intros _. apply IH; [|intros; apply R; now right]. apply (agree_trans c _ _ _ A), puts_agree, bin_puts_ours.
  Qed.
  Definition all_puts (b : dblock) (i : hinput) (names : list string) (ext : list lput) : list lput :=
    (head_puts c ++ flat_map (bin_puts c b i names) (seq 0 (h_nbins c)) ++ lh_labels c ++ ext)%list.
  Lemma execute_puts b i names kw ext : legacy_parameters (h_model c) = Some names -> lh_input c b = Ok i -> (forall nb, (nb < h_nbins c)%nat -> bin_reads c b i names nb) ->
    lh_params c (h_nbins c - 1) names b = Ok kw -> lh_extended c i kw b = Ok ext -> lh_execute over c b = do_puts over (all_puts b i names ext) b.
  Proof.
    intros M I R P X. unfold lh_execute, all_puts. rewrite M, puts_app. apply then_congr. intros _. fold (head_puts c).
    pose proof (puts_agree (head_puts c) b (head_ours c)) as A. set (b1 := fst (do_puts over (head_puts c) b)) in *.
    rewrite (input_agree c values_apart hmf_apart _ _ A), I, puts_app, (loop_runs b) by (try assumption; intros nb J; apply in_seq in J; apply R; lia).
    apply then_congr. intros _. rewrite puts_app. apply then_congr. intros _.
    rewrite (params_agree c values_apart _ _ _ _ A), P. unfold read_write.
    rewrite (extended_agree c h_apart b), X; [reflexivity|].
    apply (agree_trans c _ _ _ A). eapply agree_trans; [apply puts_agree|apply puts_agree, labels_ours].
    intros s n v J. apply in_flat_map in J. destruct J as (p & J & J'). apply in_flat_map in J. destruct J as (nb & _ & J). apply (bin_ours c b i names nb s n v). apply in_flat_map. now exists p.
  Qed.
  (** The names that have to be new. *)
  Definition sec_mains : list string :=
    ((if String.eqb (h_model c) "Cacciato" then ["f_star"] else []) ++
     ["N_sat"; "N_cen"; "N_tot"; "number_density_cen"; "number_density_sat"; "number_density_tot"; "central_fraction"; "satellite_fraction"; "average_halo_mass"] ++
     (if h_bias c then ["galaxy_bias_centrals"; "galaxy_bias_satellites"; "b"] else []))%list%string.
  Definition obs_mains : list string := if (h_save c && String.eqb (h_mode c) "obs_z" && String.eqb (h_model c) "Cacciato")%bool then ["obs_func"; "obs_func_c"; "obs_func_s"]%string else [].
  Definition in_sec (nb : nat) (n : string) : string * string := (h_section c, (n ++ lh_suffix c nb)%string).
  Definition in_obs (nb : nat) (n : string) : string * string := (h_obssec c, (n ++ "_" ++ dec (nb + 1))%string).
  Definition sec_axes (nb : nat) : list (string * string) := [in_sec nb "z"; in_sec nb "mass"].
  Definition obs_axes (nb : nat) : list (string * string) := [in_obs nb "z_bin"; in_obs nb "obs_val"].
  Lemma bin_shape b i names nb : bin_reads c b i names nb ->
    map main_name (bin_puts c b i names nb) = (map (in_sec nb) sec_mains ++ map (in_obs nb) obs_mains)%list /\
    forall p, In p (bin_puts c b i names nb) -> incl (axes p) (sec_axes nb) \/ incl (axes p) (obs_axes nb).
  Proof.
    intros (kw & l1 & l2 & P & O & B). unfold bin_puts. rewrite P, O, B.
    unfold lh_occupation in O. rewrite P in O. cbn [bind] in O. apply bind_ok in O. destruct O as (u & _ & O). cbv zeta in O. apply bind_ok in O. destruct O as (u' & _ & O). apply bind_ok in O. destruct O as (fs & F & O).
    injection O as <-. unfold sec_mains, obs_mains.
    assert (E1 : map main_name fs = map (in_sec nb) (if String.eqb (h_model c) "Cacciato" then ["f_star"%string] else []) /\ forall p, In p fs -> incl (axes p) (sec_axes nb)).
    { destruct (String.eqb (h_model c) "Cacciato"); [apply bind_ok in F; destruct F as (h & _ & F)|]; injection F as <-; (split; [reflexivity|]); intros p I; repeat (destruct I as [<-|I]; [intros a J; exact J|]); contradiction. }
    assert (E2 : map main_name l2 = map (in_sec nb) (if h_bias c then ["galaxy_bias_centrals"; "galaxy_bias_satellites"; "b"]%string else []) /\ forall p, In p l2 -> incl (axes p) (sec_axes nb)).
    { unfold lh_biases in B. destruct (h_bias c); [|injection B as <-; split; [reflexivity|contradiction]].
      apply bind_ok in B. destruct B as (zb & _ & B). apply bind_ok in B. destruct B as (pb & _ & B). apply bind_ok in B. destruct B as (v & _ & B). injection B as <-. split; [reflexivity|].
      intros p I. repeat (destruct I as [<-|I]; [intros a []|]). contradiction. }
    assert (E3 : map main_name (lh_bin_obs c i kw nb) = map (in_obs nb) (if (h_save c && String.eqb (h_mode c) "obs_z" && String.eqb (h_model c) "Cacciato")%bool then ["obs_func"; "obs_func_c"; "obs_func_s"]%string else []) /\
      forall p, In p (lh_bin_obs c i kw nb) -> incl (axes p) (obs_axes nb)).
    { unfold lh_bin_obs. destruct (_ && _)%bool; [|split; [reflexivity|contradiction]]. cbv zeta. split; [reflexivity|]. intros p I. repeat (destruct I as [<-|I]; [intros a J; exact J|]). contradiction. }
    destruct E1 as [E1 A1], E2 as [E2 A2], E3 as [E3 A3]. split.
    - rewrite !map_app, E1, E2, E3, <- !app_assoc. reflexivity.
    - intros p I. apply in_app_or in I. destruct I as [I|I]; [left|apply in_app_or in I; destruct I as [I|I]; [left; now apply A2|right; now apply A3]].
      apply in_app_or in I. destruct I as [I|I]; [now apply A1|]. repeat (destruct I as [<-|I]; [first [intros a J; exact J|intros a []]|]). contradiction.
  Qed.
  Lemma sec_mains_nodup : NoDup sec_mains.
  Proof. unfold sec_mains. destruct (String.eqb (h_model c) "Cacciato"), (h_bias c); cbn [app]; repeat (constructor; [intros I; repeat (destruct I as [I|I]; [discriminate I|]); contradiction|]); constructor. Qed.
  Lemma obs_mains_nodup : NoDup obs_mains.
  Proof. unfold obs_mains. destruct (_ && _)%bool; repeat (constructor; [intros I; repeat (destruct I as [I|I]; [discriminate I|]); contradiction|]); constructor. Qed.
  Lemma sec_mains_other n : In n sec_mains -> ~ In n reserved /\ n <> "z"%string /\ n <> "mass"%string.
  Proof.
    unfold sec_mains. intros I. apply in_app_or in I. destruct I as [I|I]; [|apply in_app_or in I; destruct I as [I|I]].
    - destruct (String.eqb (h_model c) "Cacciato"); [|contradiction]. destruct I as [<-|[]]. cbn. intuition discriminate.
    - repeat (destruct I as [<-|I]; [cbn; intuition discriminate|]). contradiction.
    - destruct (h_bias c); [|contradiction]. repeat (destruct I as [<-|I]; [cbn; intuition discriminate|]). contradiction.
  Qed.
  Lemma obs_mains_other n : In n obs_mains -> n <> "z_bin"%string /\ n <> "obs_val"%string /\ h_save c = true /\ h_mode c = "obs_z"%string.
  Proof.
    unfold obs_mains. destruct (h_save c); [|contradiction]. destruct (String.eqb_spec (h_mode c) "obs_z") as [M|M]; [|contradiction]. destruct (String.eqb (h_model c) "Cacciato"); [|contradiction].
    intros I. repeat (destruct I as [<-|I]; [intuition discriminate|]). contradiction.
  Qed.
  Lemma in_sec_same nb nb' n n' : (nb < h_nbins c)%nat -> (nb' < h_nbins c)%nat -> in_sec nb n = in_sec nb' n' -> n = n' /\ nb = nb'.
  Proof. intros L L' E. unfold in_sec, lh_suffix in E. apply pair_equal_spec in E. destruct E as [_ E]. rewrite !suffix_name in E. now apply bin_name_same in E. Qed.
  Lemma in_obs_same nb nb' n n' : in_obs nb n = in_obs nb' n' -> n = n' /\ nb = nb'.
  Proof. intros E. unfold in_obs in E. apply pair_equal_spec in E. destruct E as [_ E]. apply underscore_split in E. destruct E as [-> E]. split; [reflexivity|lia]. Qed.
  Lemma sec_obs nb nb' n n' : in_sec nb n <> in_obs nb' n'.
  Proof. intros E. apply pair_equal_spec in E. now apply (so c apart_c). Qed.
  (** The last part. *)
  Definition ext_mains : list (string * string) :=
    if String.eqb (h_model c) "Cacciato" then
      ((h_section c, "f_star_extended") ::
      (if (h_save c && String.eqb (h_mode c) "obs_onebin")%bool then [in_obs 0 "obs_func"; in_obs 0 "obs_func_c"; in_obs 0 "obs_func_s"] else []) ++
      (if (h_save c && String.eqb (h_mode c) "obs_zmed")%bool then map (pair (h_obssec c)) ["obs_val_med"; "obs_func_med"; "obs_func_med_c"; "obs_func_med_s"; "halo_mass_med"; "mean_obs_halo_mass_relation"] else []))%list%string else [].
  Lemma ext_shape i kw b ext : lh_extended c i kw b = Ok ext -> map main_name ext = ext_mains /\
    forall p, In p ext -> incl (axes p) [(h_section c, "z_extended"%string); (h_section c, "mass_extended"%string)] \/ incl (axes p) (obs_axes 0).
  Proof.
    unfold lh_extended, ext_mains. destruct (String.eqb (h_model c) "Cacciato"); [|intros H; injection H as <-; split; [reflexivity|contradiction]].
    cbv zeta. intros H. apply bind_ok in H. destruct H as (h & _ & H). injection H as <-. cbn [map main_name]. rewrite map_app. split.
    - f_equal. f_equal; destruct (_ && _)%bool; reflexivity.
    - intros p I. destruct I as [<-|I]; [left; intros a J; exact J|]. apply in_app_or in I. destruct I as [I|I]; (destruct (_ && _)%bool; [|contradiction]); right;
        repeat (destruct I as [<-|I]; [first [intros a J; exact J|intros a []]|]); contradiction.
  Qed.
  Lemma labels_shape : map main_name (lh_labels c) = (if h_save c then [(h_obssec c, "obs_func_definition"); (h_obssec c, "observable_mode")]%string else []) /\ forall p, In p (lh_labels c) -> axes p = [].
  Proof. unfold lh_labels. destruct (h_save c); (split; [reflexivity|]); intros p I; repeat (destruct I as [<-|I]; [reflexivity|]); contradiction. Qed.
  Definition label_list : list (string * string) := if h_save c then [(h_obssec c, "obs_func_definition"); (h_obssec c, "observable_mode")]%string else [].
  Definition bin_mains (nb : nat) : list (string * string) := (map (in_sec nb) sec_mains ++ map (in_obs nb) obs_mains)%list.
  Definition head_mains : list (string * string) := [(h_section c, "nbins"); (h_section c, "observable_z")]%string.
  Definition all_mains : list (string * string) := (head_mains ++ flat_map bin_mains (seq 0 (h_nbins c)) ++ label_list ++ ext_mains)%list.
  Lemma all_shape b i names kw ext : (forall nb, (nb < h_nbins c)%nat -> bin_reads c b i names nb) -> lh_extended c i kw b = Ok ext -> map main_name (all_puts b i names ext) = all_mains.
  Proof.
    intros R X. unfold all_puts, all_mains. rewrite !map_app, map_flat, (proj1 labels_shape), (proj1 (ext_shape _ _ _ _ X)). f_equal. f_equal.
    rewrite !flat_map_concat_map. f_equal. apply map_ext_in. intros nb I. apply in_seq in I. apply bin_shape, R. lia.
  Qed.
  Definition plain_names : list string := ["obs_func_definition"; "observable_mode"; "obs_val_med"; "obs_func_med"; "obs_func_med_c"; "obs_func_med_s"; "halo_mass_med"; "mean_obs_halo_mass_relation"]%string.
  Lemma plain_not_numbered a k n : In n plain_names -> (a ++ "_" ++ dec k)%string <> n.
  Proof. intros I. apply numbered_not. unfold plain_names in I. repeat (destruct I as [<-|I]; [reflexivity|]). contradiction. Qed.
  (** The kinds of names. *)
  Lemma ext_kinds x : In x ext_mains -> x = (h_section c, "f_star_extended"%string) \/ (h_save c = true /\ h_mode c = "obs_onebin"%string /\ exists n, In n ["obs_func"; "obs_func_c"; "obs_func_s"]%string /\ x = in_obs 0 n) \/
    (exists n, In n ["obs_val_med"; "obs_func_med"; "obs_func_med_c"; "obs_func_med_s"; "halo_mass_med"; "mean_obs_halo_mass_relation"]%string /\ x = (h_obssec c, n)).
  Proof.
    unfold ext_mains. destruct (String.eqb (h_model c) "Cacciato"); [|contradiction]. intros [<-|I]; [now left|]. apply in_app_or in I. destruct I as [I|I].
    - destruct (h_save c); [|contradiction]. destruct (String.eqb_spec (h_mode c) "obs_onebin") as [M|]; [|contradiction]. right. left. split; [reflexivity|]. split; [exact M|].
      destruct I as [<-|[<-|[<-|[]]]]; eexists; (split; [|reflexivity]); cbn; tauto.
    - right. right. destruct (_ && _)%bool; [|contradiction]. apply in_map_iff in I. destruct I as (n & <- & I). now exists n.
  Qed.
  Lemma label_kinds x : In x label_list -> exists n, In n ["obs_func_definition"; "observable_mode"]%string /\ x = (h_obssec c, n).
  Proof. unfold label_list. destruct (h_save c); [|contradiction]. intros [<-|[<-|[]]]; eexists; (split; [|reflexivity]); cbn; tauto. Qed.
  Lemma bin_kinds nb x : In x (bin_mains nb) -> (exists n, In n sec_mains /\ x = in_sec nb n) \/ (exists n, In n obs_mains /\ x = in_obs nb n).
  Proof. unfold bin_mains. intros I. apply in_app_or in I. destruct I as [I|I]; apply in_map_iff in I; destruct I as (n & <- & I); [left|right]; now exists n. Qed.
  Lemma sec_not_head nb n m : In n sec_mains -> In m reserved -> in_sec nb n <> (h_section c, m).
  Proof. intros I J E. apply pair_equal_spec in E. destruct E as [_ E]. destruct (sec_mains_other n I) as (N & _). apply (suffix_reserved n (h_nbins c) nb N). unfold lh_suffix in E. now rewrite E. Qed.
  Lemma sec_not_osec n m : (h_section c, n : string) <> (h_obssec c, m).
  Proof. intros E. apply pair_equal_spec in E. now apply (so c apart_c). Qed.
  Lemma all_nodup : NoDup all_mains.
  Proof.
    unfold all_mains. apply nodup_join; [| |].
    - unfold head_mains. constructor; [intros [E|[]]; discriminate|]. constructor; [intros []|constructor].
    - apply nodup_join; [| |].
      + apply nodup_flat; [apply seq_NoDup| |].
        * intros nb I. apply in_seq in I. unfold bin_mains. apply nodup_join.
          -- apply nodup_map; [|apply sec_mains_nodup]. intros n m _ _ E. apply (in_sec_same nb nb n m) in E; [apply E|lia|lia].
          -- apply nodup_map; [|apply obs_mains_nodup]. intros n m _ _ E. now apply (in_obs_same nb nb n m) in E.
          -- intros x X Y. apply in_map_iff in X. destruct X as (n & <- & _). apply in_map_iff in Y. destruct Y as (m & Y & _). symmetry in Y. revert Y. apply sec_obs.
        * intros nb nb' x I J X Y. apply in_seq in I. apply in_seq in J. apply bin_kinds in X. apply bin_kinds in Y. destruct X as [(n & N & ->)|(n & N & ->)], Y as [(m & M & Y)|(m & M & Y)].
          -- apply in_sec_same in Y; [apply Y|lia|lia].
          -- now apply sec_obs in Y.
          -- symmetry in Y. now apply sec_obs in Y.
          -- apply in_obs_same in Y. apply Y.
      + apply nodup_join; [| |].
        * unfold label_list. destruct (h_save c); [|constructor]. constructor; [intros [E|[]]; discriminate|]. constructor; [intros []|constructor].
        * unfold ext_mains. destruct (String.eqb (h_model c) "Cacciato"); [|constructor]. constructor.
          -- intros I. apply in_app_or in I. destruct I as [I|I]; (destruct (_ && _)%bool; [|contradiction]).
             ++ repeat (destruct I as [I|I]; [symmetry in I; now apply sec_not_osec in I|]). contradiction.
             ++ apply in_map_iff in I. destruct I as (n & I & _). symmetry in I. now apply sec_not_osec in I.
          -- destruct (h_save c); [|constructor]. destruct (String.eqb_spec (h_mode c) "obs_onebin") as [->|M].
             ++ cbn [andb app String.eqb Ascii.eqb Bool.eqb]. repeat (constructor; [intros I; repeat (destruct I as [I|I]; [discriminate I|]); contradiction|]); constructor.
             ++ cbn [andb app]. destruct (String.eqb (h_mode c) "obs_zmed"); [|constructor]. apply nodup_map; [intros n m _ _ E; now injection E|].
                repeat (constructor; [intros I; repeat (destruct I as [I|I]; [discriminate I|]); contradiction|]); constructor.
        * intros x X Y. apply label_kinds in X. destruct X as (n & N & ->). apply ext_kinds in Y. destruct Y as [Y|[(_ & _ & m & M & Y)|(m & M & Y)]].
          -- symmetry in Y. now apply sec_not_osec in Y.
          -- unfold in_obs in Y. apply pair_equal_spec in Y. destruct Y as [_ Y]. symmetry in Y. revert Y. apply plain_not_numbered. cbn in N |- *. tauto.
          -- injection Y as <-. cbn in N, M. destruct N as [<-|[<-|[]]]; repeat (destruct M as [M|M]; [discriminate M|]); contradiction.
      + intros x X Y. apply in_flat_map in X. destruct X as (nb & I & X). apply bin_kinds in X. apply in_app_or in Y. destruct Y as [Y|Y].
        * apply label_kinds in Y. destruct Y as (m & M & ->). destruct X as [(n & N & X)|(n & N & X)].
          -- symmetry in X. unfold in_sec in X. now apply sec_not_osec in X.
          -- unfold in_obs in X. apply pair_equal_spec in X. destruct X as [_ X]. symmetry in X. revert X. apply plain_not_numbered. cbn in M |- *. tauto.
        * apply ext_kinds in Y. destruct Y as [->|[(S & O & m & M & ->)|(m & M & ->)]]; destruct X as [(n & N & X)|(n & N & X)].
          -- symmetry in X. revert X. apply sec_not_head; [exact N|]. cbn. tauto.
          -- unfold in_obs in X. now apply sec_not_osec in X.
          -- symmetry in X. now apply sec_obs in X.
          -- apply obs_mains_other in N. destruct N as (_ & _ & _ & N). rewrite O in N. discriminate.
          -- symmetry in X. unfold in_sec in X. now apply sec_not_osec in X.
          -- unfold in_obs in X. apply pair_equal_spec in X. destruct X as [_ X]. symmetry in X. revert X. apply plain_not_numbered. cbn in M |- *. tauto.
    - intros x X Y. assert (H : exists m, In m ["nbins"; "observable_z"]%string /\ x = (h_section c, m)) by (destruct X as [<-|[<-|[]]]; eexists; (split; [|reflexivity]); cbn; tauto). destruct H as (m & M & ->).
      apply in_app_or in Y. destruct Y as [Y|Y]; [|apply in_app_or in Y; destruct Y as [Y|Y]].
      + apply in_flat_map in Y. destruct Y as (nb & I & Y). apply bin_kinds in Y. destruct Y as [(n & N & Y)|(n & N & Y)].
        * symmetry in Y. revert Y. apply sec_not_head; [exact N|]. cbn in M |- *. tauto.
        * unfold in_obs in Y. now apply sec_not_osec in Y.
      + apply label_kinds in Y. destruct Y as (n & _ & Y). now apply sec_not_osec in Y.
      + apply ext_kinds in Y. destruct Y as [Y|[(_ & _ & n & _ & Y)|(n & _ & Y)]].
        * injection Y as ->. destruct M as [M|[M|[]]]; discriminate.
        * unfold in_obs in Y. now apply sec_not_osec in Y.
        * now apply sec_not_osec in Y.
  Qed.
  Definition all_axes (x : string * string) : Prop :=
    (exists nb, (nb < h_nbins c)%nat /\ In x (sec_axes nb)) \/ In x [(h_section c, "z_extended"%string); (h_section c, "mass_extended"%string)] \/ (exists nb, In x (obs_axes nb)).
  Lemma axes_kinds b i names kw ext p x : (forall nb, (nb < h_nbins c)%nat -> bin_reads c b i names nb) -> lh_extended c i kw b = Ok ext -> In p (all_puts b i names ext) -> In x (axes p) -> all_axes x.
  Proof.
    intros R X I J. unfold all_puts in I. apply in_app_or in I. destruct I as [I|I]; [destruct I as [<-|[<-|[]]]; contradiction|]. apply in_app_or in I. destruct I as [I|I]; [|apply in_app_or in I; destruct I as [I|I]].
    - apply in_flat_map in I. destruct I as (nb & N & I). apply in_seq in N. assert (L : (nb < h_nbins c)%nat) by lia. destruct (proj2 (bin_shape _ _ _ _ (R nb L)) p I) as [K|K]; [left; exists nb; split; [exact L|now apply K]|right; right; exists nb; now apply K].
    - rewrite (proj2 labels_shape p I) in J. contradiction.
    - destruct (proj2 (ext_shape _ _ _ _ X) p I) as [K|K]; [right; left; now apply K|right; right; exists 0%nat; now apply K].
  Qed.
  Lemma mains_not_axes x : In x all_mains -> ~ all_axes x.
  Proof.
    assert (Z : forall nb y, In y (sec_axes nb) -> exists n, (n = "z"%string \/ n = "mass"%string) /\ y = in_sec nb n) by (intros nb y [<-|[<-|[]]]; eexists; (split; [|reflexivity]); tauto).
    assert (Z' : forall nb y, In y (obs_axes nb) -> exists n, (n = "z_bin"%string \/ n = "obs_val"%string) /\ y = in_obs nb n) by (intros nb y [<-|[<-|[]]]; eexists; (split; [|reflexivity]); tauto).
    assert (W : forall y, In y [(h_section c, "z_extended"%string); (h_section c, "mass_extended"%string)] -> exists n, (n = "z_extended"%string \/ n = "mass_extended"%string) /\ y = (h_section c, n)) by (intros y [<-|[<-|[]]]; eexists; (split; [|reflexivity]); tauto).
    intros I [(nb' & L' & A)|[A|(nb' & A)]]; [apply Z in A|apply W in A|apply Z' in A]; destruct A as (a & A & ->); unfold all_mains in I; apply in_app_or in I; destruct I as [I|I].
    - destruct I as [E|[E|[]]]; symmetry in E; unfold in_sec in E; apply pair_equal_spec in E; destruct E as [_ E]; apply (suffix_reserved a (h_nbins c) nb'); try (unfold lh_suffix in E; rewrite E; cbn; tauto);
        intros K; cbn in K; destruct A as [->| ->]; intuition discriminate.
    - apply in_app_or in I. destruct I as [I|I]; [|apply in_app_or in I; destruct I as [I|I]].
      + apply in_flat_map in I. destruct I as (nb & N & I). apply in_seq in N. apply bin_kinds in I. destruct I as [(n & M & E)|(n & M & E)]; [|now apply sec_obs in E].
        apply in_sec_same in E; [|exact L'|lia]. destruct E as [<- _]. apply sec_mains_other in M. destruct M as (_ & M1 & M2). destruct A; contradiction.
      + apply label_kinds in I. destruct I as (n & _ & I). unfold in_sec in I. now apply sec_not_osec in I.
      + apply ext_kinds in I. destruct I as [E|[(_ & _ & n & _ & E)|(n & _ & E)]].
        * unfold in_sec in E; apply pair_equal_spec in E; destruct E as [_ E]; apply (suffix_reserved a (h_nbins c) nb'); try (unfold lh_suffix in E; rewrite E; cbn; tauto);
            intros K; cbn in K; destruct A as [->| ->]; intuition discriminate.
        * now apply sec_obs in E.
        * unfold in_sec in E. now apply sec_not_osec in E.
    - destruct I as [E|[E|[]]]; injection E as E; destruct A as [->| ->]; discriminate.
    - apply in_app_or in I. destruct I as [I|I]; [|apply in_app_or in I; destruct I as [I|I]].
      + apply in_flat_map in I. destruct I as (nb & N & I). apply bin_kinds in I. destruct I as [(n & M & E)|(n & M & E)]; [|unfold in_obs in E; now apply sec_not_osec in E].
        symmetry in E. revert E. apply sec_not_head; [exact M|]. cbn. destruct A as [->| ->]; tauto.
      + apply label_kinds in I. destruct I as (n & _ & I). now apply sec_not_osec in I.
      + apply ext_kinds in I. destruct I as [E|[(_ & _ & n & _ & E)|(n & _ & E)]].
        * injection E as E. destruct A as [->| ->]; discriminate.
        * unfold in_obs in E. now apply sec_not_osec in E.
        * now apply sec_not_osec in E.
    - destruct I as [E|[E|[]]]; unfold in_obs in E; now apply sec_not_osec in E.
    - apply in_app_or in I. destruct I as [I|I]; [|apply in_app_or in I; destruct I as [I|I]].
      + apply in_flat_map in I. destruct I as (nb & N & I). apply bin_kinds in I. destruct I as [(n & M & E)|(n & M & E)]; [symmetry in E; now apply sec_obs in E|].
        apply in_obs_same in E. destruct E as [<- _]. apply obs_mains_other in M. destruct M as (M1 & M2 & _). destruct A; contradiction.
      + apply label_kinds in I. destruct I as (n & N & E). unfold in_obs in E. apply pair_equal_spec in E. destruct E as [_ E]. revert E. apply plain_not_numbered. cbn in N |- *. tauto.
      + apply ext_kinds in I. destruct I as [E|[(_ & _ & n & N & E)|(n & N & E)]].
        * symmetry in E. unfold in_obs in E. now apply sec_not_osec in E.
        * apply in_obs_same in E. destruct E as [<- _]. cbn in N. destruct A as [->| ->]; intuition discriminate.
        * unfold in_obs in E. apply pair_equal_spec in E. destruct E as [_ E]. revert E. apply plain_not_numbered. cbn in N |- *. tauto.
  Qed.
  (** Everything is read and the names are new: the run succeeds. *)
  Lemma runs b i names kw ext : legacy_parameters (h_model c) = Some names -> lh_input c b = Ok i -> (forall nb, (nb < h_nbins c)%nat -> bin_reads c b i names nb) ->
    lh_params c (h_nbins c - 1) names b = Ok kw -> lh_extended c i kw b = Ok ext -> (forall n, b (h_section c) n = None) -> (forall n, b (h_obssec c) n = None) ->
    exists b', lh_execute over c b = (b', Ok tt).
  Proof.
    intros M I R P X F1 F2. rewrite (execute_puts _ _ _ _ _ M I R P X). apply do_puts_runs.
    - rewrite (all_shape _ _ _ _ _ R X). apply all_nodup.
    - intros p q Hp Hq K. apply (mains_not_axes (main_name p)); [rewrite <- (all_shape _ _ _ _ _ R X); now apply in_map|]. exact (axes_kinds _ _ _ _ _ _ _ R X Hq K).
    - intros p Hp. assert (K : In (main_name p) all_mains) by (rewrite <- (all_shape _ _ _ _ _ R X); now apply in_map). destruct (main_name p) as [s n]. cbn [fst snd].
      assert (S : s = h_section c \/ s = h_obssec c).
      { unfold all_mains in K. apply in_app_or in K. destruct K as [K|K]; [destruct K as [E|[E|[]]]; injection E as <- _; now left|]. apply in_app_or in K. destruct K as [K|K]; [|apply in_app_or in K; destruct K as [K|K]].
        - apply in_flat_map in K. destruct K as (nb & _ & K). apply bin_kinds in K. destruct K as [(m & _ & E)|(m & _ & E)]; apply pair_equal_spec in E; destruct E as [-> _]; [now left|now right].
        - apply label_kinds in K. destruct K as (m & _ & E). injection E as -> _. now right.
        - apply ext_kinds in K. destruct K as [E|[(_ & _ & m & _ & E)|(m & _ & E)]]; apply pair_equal_spec in E; destruct E as [-> _]; [now left|now right|now right]. }
      destruct S as [->| ->]; [apply F1|apply F2].
  Qed.
  (** What a run, successful or not, leaves outside of its sections. *)
  Lemma frame b b' r s n : lh_execute over c b = (b', r) -> s <> h_section c -> s <> h_obssec c -> b' s n = b s n.
  Proof.
    intros H N M. enough (A : agree c b (fst (lh_execute over c b))) by (rewrite H in A; exact (A s n N M)). clear H.
    assert (T : forall d (f : dblock -> dblock * res unit) k, agree c d (fst (f d)) -> (forall d', agree c d' (fst (k d'))) -> agree c d (fst (then_ (f d) k))).
    { intros d f k H K. unfold then_. destruct (snd (f d)); [|exact H]. apply (agree_trans c _ _ _ H), K. }
    unfold lh_execute. destruct (legacy_parameters (h_model c)) as [names|]; [|apply agree_refl].
    apply (T b (do_puts over (head_puts c))); [apply puts_agree, head_ours|]. intros b1. destruct (lh_input c b1) as [i|e]; [|apply agree_refl].
    apply (T b1 (in_turn (map (lh_bin_execute over c i names) (seq 0 (h_nbins c))))).
    - generalize (seq 0 (h_nbins c)). intros l. revert b1. induction l as [|nb l IH]; intros b1; [apply agree_refl|]. cbn [map in_turn].
      apply (T b1 (lh_bin_execute over c i names nb)); [|apply IH]. unfold lh_bin_execute. apply (T b1 (read_write over (lh_occupation c i names nb))).
      + unfold read_write. destruct (lh_occupation c i names nb b1) as [l1|e] eqn:E; [|apply agree_refl]. apply puts_agree. exact (occupation_ours c _ _ _ _ _ E).
      + intros b2. destruct (lh_params c nb names b1) as [kw|e]; [|apply agree_refl]. apply (T b2 (read_write over (lh_biases c i kw nb))).
        * unfold read_write. destruct (lh_biases c i kw nb b2) as [l1|e] eqn:E; [|apply agree_refl]. apply puts_agree. exact (biases_ours c _ _ _ _ _ E).
        * intros b3. apply puts_agree, bin_obs_ours.
    - intros b2. apply (T b2 (do_puts over (lh_labels c))); [apply puts_agree, labels_ours|]. intros b3. destruct (lh_params c (h_nbins c - 1) names b1) as [kw|e]; [|apply agree_refl].
      unfold read_write. destruct (lh_extended c i kw b3) as [l1|e] eqn:E; [|apply agree_refl]. apply puts_agree. exact (extended_ours c _ _ _ _ E).
  Qed.
  (** A run after a run. *)
  Lemma again b b' : lh_execute over c b = (b', Ok tt) -> lh_execute over c b' = (b', Err "BlockNameAlreadyExists").
  Proof.
    intros H. destruct (run_ok over c values_apart h_apart bias_apart hmf_apart b b' H) as (names & i & kw & ext & M & I & R & P & X & B).
    destruct (head_value c apart_c b b' names i kw ext R X B) as [K _]. unfold lh_execute. rewrite M. cbn [do_puts do_put]. unfold put_new at 1. rewrite K. reflexivity.
  Qed.
End Runs.
