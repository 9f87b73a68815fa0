(** Lemmas about LhModel: what a successful run leaves under each name. *)
From Coq Require Import ZArith Lia Lra.
From Verif Require Import Base Quad Interp FftModel PipeModel PipeSpec PipeFacts HodModel OptModel ChainModel PredModel MiniModel AupModel LiaModel LiaSpec LhModel LhSpec LhFacts LhFacts2.
Open Scope R_scope.

Lemma nodup_once {A} (l : list (string * A)) k v w : NoDup (map fst l) -> In (k, v) l -> In (k, w) l -> v = w.
Proof.
  induction l as [|[k0 v0] l IH]; intros D I J; [contradiction|]. cbn in D. inversion D as [|? ? N D']; subst.
  destruct I as [I|I], J as [J|J]; [congruence| | |now apply IH].
  - injection I as -> ->. exfalso. apply N. change k with (fst (k, w)). now apply in_map.
  - injection J as -> ->. exfalso. apply N. change k with (fst (k, v)). now apply in_map.
Qed.
(** Writes under names of one section with one ending. *)
Definition named (sec sfx : string) (p : lput) (l : list (string * bval)) : Prop :=
  forall s n v, In (s, n, v) (entries p) <-> s = sec /\ exists base, n = (base ++ sfx)%string /\ In (base, v) l.
Lemma named_plain sec sfx n v : named sec sfx (Plain sec (n ++ sfx) v) [(n, v)].
Proof.
  intros s n' v'. cbn [entries]. split.
  - intros [I|[]]. apply pair_equal_spec in I. destruct I as [I <-]. apply pair_equal_spec in I. destruct I as [<- <-]. split; [reflexivity|]. exists n. split; [reflexivity|now left].
  - intros (-> & base & -> & [I|[]]). apply pair_equal_spec in I. destruct I as [<- <-]. now left.
Qed.
Lemma named_grid sec sfx nx x ny y n t : named sec sfx (Grid sec (nx ++ sfx) x (ny ++ sfx) y (n ++ sfx) t) [(nx, BArr x); (ny, BArr y); (n, BTab t)].
Proof.
  intros s n' v'. cbn [entries]. split.
  - intros [I|[I|[I|[]]]]; apply pair_equal_spec in I; destruct I as [I <-]; apply pair_equal_spec in I; destruct I as [<- <-]; (split; [reflexivity|]).
    + exists nx. split; [reflexivity|now left].
    + exists ny. split; [reflexivity|right; now left].
    + exists n. split; [reflexivity|right; right; now left].
  - intros (-> & base & -> & [I|[I|[I|[]]]]); apply pair_equal_spec in I; destruct I as [<- <-]; [now left|right; now left|right; right; now left].
Qed.
Lemma named_all sec sfx ps ls : Forall2 (named sec sfx) ps ls -> forall s n v,
  In (s, n, v) (flat_map entries ps) <-> s = sec /\ exists base, n = (base ++ sfx)%string /\ In (base, v) (List.concat ls).
Proof.
  induction 1 as [|p l ps ls P F IH]; intros s n v; cbn [flat_map List.concat].
  - split; [contradiction|]. intros (_ & base & _ & []).
  - rewrite in_app_iff, IH, (P s n v). split.
    + intros [(-> & base & -> & I)|(-> & base & -> & I)]; (split; [reflexivity|]); exists base; (split; [reflexivity|]); apply in_or_app; [now left|now right].
    + intros (-> & base & -> & I). apply in_app_or in I. destruct I as [I|I]; [left|right]; (split; [reflexivity|]); now exists base.
Qed.
Section Names.
  Variable over : bool.
  Variable c : hconfig.
  Section Bin.
    Variables (i : hinput) (kw : string -> R) (nb : nat) (h : R) (zb : list R) (pb : list (list R)).
    Definition tab (f : A2) : bval := BTab (grid2 (h_nz c) (List.length (i_mass i)) f).
    Definition arr (f : A1) : bval := BArr (row (h_nz c) f).
    (** Under the names of the bin in the HOD section. *)
    Definition sec_list : list (string * bval) :=
      let x := lh_bin c i kw nb in
      ([("z", arr (h_z c nb)); ("mass", BArr (i_mass i)); ("N_sat", tab (lh_sat x)); ("N_cen", tab (lh_cen x)); ("N_tot", tab (lh_tot x));
        ("number_density_cen", arr (lh_density x (lh_cen x))); ("number_density_sat", arr (lh_density x (lh_sat x))); ("number_density_tot", arr (lh_density x (lh_tot x)));
        ("central_fraction", arr (fun j => lh_density x (lh_cen x) j / lh_density x (lh_tot x) j));
        ("satellite_fraction", arr (fun j => lh_density x (lh_sat x) j / lh_density x (lh_tot x) j));
        ("average_halo_mass", arr (fun j => lh_mass x (lh_cen x) j / lh_density x (lh_cen x) j))]%string ++
       (if String.eqb (h_model c) "Cacciato" then [("f_star"%string, tab (fun j m => lh_fstar x j m * h))] else []) ++
       (if h_bias c then
          let hb := fun j => at_z zb pb (h_z c nb j) in
          [("galaxy_bias_centrals", arr (fun j => lh_bias x hb (lh_cen x) j / lh_density x (lh_tot x) j));
           ("galaxy_bias_satellites", arr (fun j => lh_bias x hb (lh_sat x) j / lh_density x (lh_tot x) j));
           ("b", arr (fun j => lh_bias x hb (lh_tot x) j / lh_density x (lh_tot x) j))]%string else []))%list.
    Lemma sec_nodup : NoDup (map fst sec_list).
    Proof.
      unfold sec_list. cbv zeta. rewrite !map_app.
      destruct (String.eqb (h_model c) "Cacciato"), (h_bias c); cbn [map fst app]; repeat (constructor; [intros I; repeat (destruct I as [I|I]; [discriminate I|]); contradiction|]); constructor.
    Qed.
    Definition reserved : list string := ["nbins"; "observable_z"; "z_extended"; "mass_extended"; "f_star_extended"]%string.
    Lemma sec_not_reserved base v : In (base, v) sec_list -> ~ In base reserved.
    Proof.
      unfold sec_list. cbv zeta. intros I. apply in_app_or in I. destruct I as [I|I]; [|apply in_app_or in I; destruct I as [I|I]].
      - repeat (destruct I as [I|I]; [injection I as <- _; cbn; intuition discriminate|]); contradiction.
      - destruct (String.eqb (h_model c) "Cacciato"); [|contradiction]. destruct I as [I|[]]. injection I as <- _. cbn. intuition discriminate.
      - destruct (h_bias c); [|contradiction]. repeat (destruct I as [I|I]; [injection I as <- _; cbn; intuition discriminate|]); contradiction.
    Qed.
    (** Under the numbered names in the section of observables. *)
    Definition obs_of (f : cacciato_par -> R -> R -> R) : bval :=
      let x := lh_bin c i kw nb in
      let range := obs_range (obs_values c nb) (h_nobs c) in
      BTab (grid2 (h_nz c) (h_nobs c) (fun j o => ln ten * interp1d (FillPair 0 0) (h_nobs c) (h_obs c nb j) (lh_obs_func x f j) (range o) * range o)).
    Definition obs_list : list (string * bval) :=
      if (h_save c && String.eqb (h_mode c) "obs_z" && String.eqb (h_model c) "Cacciato")%bool then
        [("z_bin", arr (h_z c nb)); ("obs_val", BArr (row (h_nobs c) (obs_range (obs_values c nb) (h_nobs c)))); ("obs_func", obs_of cof); ("obs_func_c", obs_of cof_cen); ("obs_func_s", obs_of cof_sat)]%string
      else [].
    Lemma obs_nodup : NoDup (map fst obs_list).
    Proof. unfold obs_list. destruct (_ && _)%bool; cbn [map fst]; repeat (constructor; [intros I; repeat (destruct I as [I|I]; [discriminate I|]); contradiction|]); constructor. Qed.
  End Bin.
  (** What was read for the bin. *)
  Definition bin_data (b : dblock) (i : hinput) (names : list string) (nb : nat) (kw : string -> R) (h : R) (zb : list R) (pb : list (list R)) : Prop :=
    lh_params c nb names b = Ok kw /\ table_fits (i_z i) (List.length (i_mass i)) (i_dn i) = true /\
    some_negative (h_nz c) (List.length (i_mass i)) (lh_sat (lh_bin c i kw nb)) = false /\ some_negative (h_nz c) (List.length (i_mass i)) (lh_cen (lh_bin c i kw nb)) = false /\
    (h_model c = "Cacciato"%string -> h_factor c b = Ok h) /\
    (h_bias c = true -> array b "halobias" "z" = Ok zb /\ table_at b "halobias" "b_hb" = Ok pb /\ table_fits zb (List.length (i_mass i)) pb = true).
  Ltac hit := first [left; reflexivity | right; hit].
  Lemma bin_has b i names nb : bin_reads c b i names nb -> exists kw h zb pb, bin_data b i names nb kw h zb pb /\
    forall s n v, In (s, n, v) (bin_entries c b i names nb) <->
      (s = h_section c /\ exists base, n = (base ++ lh_suffix c nb)%string /\ In (base, v) (sec_list i kw nb h zb pb)) \/
      (s = h_obssec c /\ exists base, n = (base ++ "_" ++ dec (nb + 1))%string /\ In (base, v) (obs_list i kw nb)).
  Proof.
    intros (kw & l1 & l2 & P & O & B). exists kw. unfold bin_data, bin_entries, bin_puts. rewrite P, O, B.
    unfold lh_occupation in O. rewrite P in O. cbn [bind] in O.
    destruct (table_fits (i_z i) (List.length (i_mass i)) (i_dn i)) eqn:T; [cbn [bind] in O|discriminate]. cbv zeta in O.
    change (lo_nz (lh_bin c i kw nb)) with (h_nz c) in O. change (lo_nm (lh_bin c i kw nb)) with (List.length (i_mass i)) in O.
    destruct (some_negative _ _ (lh_sat (lh_bin c i kw nb))) eqn:N1; [discriminate|]. destruct (some_negative _ _ (lh_cen (lh_bin c i kw nb))) eqn:N2; [discriminate|]. cbn [orb bind] in O.
    assert (H : exists h, (h_model c = "Cacciato"%string -> h_factor c b = Ok h) /\
      l1 = ((if String.eqb (h_model c) "Cacciato" then [bin_grid c i nb "f_star" (fun j m => lh_fstar (lh_bin c i kw nb) j m * h)] else []) ++
        [bin_grid c i nb "N_sat" (lh_sat (lh_bin c i kw nb)); bin_grid c i nb "N_cen" (lh_cen (lh_bin c i kw nb)); bin_grid c i nb "N_tot" (lh_tot (lh_bin c i kw nb));
      bin_arr c nb "number_density_cen" (lh_density (lh_bin c i kw nb) (lh_cen (lh_bin c i kw nb))); bin_arr c nb "number_density_sat" (lh_density (lh_bin c i kw nb) (lh_sat (lh_bin c i kw nb)));
      bin_arr c nb "number_density_tot" (lh_density (lh_bin c i kw nb) (lh_tot (lh_bin c i kw nb)));
      bin_arr c nb "central_fraction" (fun j => lh_density (lh_bin c i kw nb) (lh_cen (lh_bin c i kw nb)) j / lh_density (lh_bin c i kw nb) (lh_tot (lh_bin c i kw nb)) j);
      bin_arr c nb "satellite_fraction" (fun j => lh_density (lh_bin c i kw nb) (lh_sat (lh_bin c i kw nb)) j / lh_density (lh_bin c i kw nb) (lh_tot (lh_bin c i kw nb)) j);
      bin_arr c nb "average_halo_mass" (fun j => lh_mass (lh_bin c i kw nb) (lh_cen (lh_bin c i kw nb)) j / lh_density (lh_bin c i kw nb) (lh_cen (lh_bin c i kw nb)) j)])%list).
    { destruct (String.eqb_spec (h_model c) "Cacciato") as [E|E].
      - destruct (h_factor c b) as [h|e]; [|discriminate]. exists h. cbn [bind] in O. injection O as <-. split; [reflexivity|reflexivity].
      - exists 0. cbn [bind] in O. injection O as <-. split; [contradiction|reflexivity]. }
    destruct H as (h & H & ->). exists h. clear O.
    assert (Z : exists zb pb, (h_bias c = true -> array b "halobias" "z" = Ok zb /\ table_at b "halobias" "b_hb" = Ok pb /\ table_fits zb (List.length (i_mass i)) pb = true) /\
      l2 = if h_bias c then [bin_arr c nb "galaxy_bias_centrals" (fun j => lh_bias (lh_bin c i kw nb) (fun j => at_z zb pb (h_z c nb j)) (lh_cen (lh_bin c i kw nb)) j / lh_density (lh_bin c i kw nb) (lh_tot (lh_bin c i kw nb)) j);
          bin_arr c nb "galaxy_bias_satellites" (fun j => lh_bias (lh_bin c i kw nb) (fun j => at_z zb pb (h_z c nb j)) (lh_sat (lh_bin c i kw nb)) j / lh_density (lh_bin c i kw nb) (lh_tot (lh_bin c i kw nb)) j);
          bin_arr c nb "b" (fun j => lh_bias (lh_bin c i kw nb) (fun j => at_z zb pb (h_z c nb j)) (lh_tot (lh_bin c i kw nb)) j / lh_density (lh_bin c i kw nb) (lh_tot (lh_bin c i kw nb)) j)] else []).
    { unfold lh_biases in B. destruct (h_bias c).
      - apply bind_ok in B. destruct B as (zb & B1 & B). apply bind_ok in B. destruct B as (pb & B2 & B). apply bind_ok in B. destruct B as (u & B3 & B). injection B as <-.
        exists zb, pb. split; [|reflexivity]. intros _. split; [exact B1|]. split; [exact B2|]. destruct (table_fits zb (List.length (i_mass i)) pb); [reflexivity|discriminate].
      - injection B as <-. exists [], []. split; [discriminate|reflexivity]. }
    destruct Z as (zb & pb & Z & ->). exists zb, pb. split; [repeat split; try assumption; try (apply Z; assumption)|]. clear B.
    assert (G : forall nm f, named (h_section c) (lh_suffix c nb) (bin_grid c i nb nm f) [("z"%string, arr (h_z c nb)); ("mass"%string, BArr (i_mass i)); (nm, tab i f)]) by (intros; apply named_grid).
    assert (Q : forall nm f, named (h_section c) (lh_suffix c nb) (bin_arr c nb nm f) [(nm, arr f)]) by (intros; apply named_plain).
    assert (W : forall nm f, named (h_obssec c) ("_" ++ dec (nb + 1))%string (obs_grid c ("_" ++ dec (nb + 1)) nm (h_nz c) (h_nobs c) (h_z c nb) (obs_range (obs_values c nb) (h_nobs c)) f)
      [("z_bin"%string, arr (h_z c nb)); ("obs_val"%string, BArr (row (h_nobs c) (obs_range (obs_values c nb) (h_nobs c)))); (nm, BTab (grid2 (h_nz c) (h_nobs c) (fun j o => ln ten * f j o * obs_range (obs_values c nb) (h_nobs c) o)))]) by (intros; apply named_grid).
    intros s n v. rewrite (app_assoc _ _ (lh_bin_obs c i kw nb)), flat_map_app, in_app_iff.
    match goal with |- (In _ (flat_map entries ?l) \/ _) <-> _ => assert (F : exists ls, Forall2 (named (h_section c) (lh_suffix c nb)) l ls /\ forall e, In e (List.concat ls) <-> In e (sec_list i kw nb h zb pb)) end.
    { unfold sec_list. cbv zeta. destruct (String.eqb (h_model c) "Cacciato"), (h_bias c); cbn [app]; eexists; (split; [repeat (constructor; [first [apply G|apply Q]|]); constructor|]); cbn [List.concat app]; intros e;
        (split; intros I; repeat (destruct I as [<-|I]; [hit|]); contradiction). }
    assert (F' : exists ls, Forall2 (named (h_obssec c) ("_" ++ dec (nb + 1))%string) (lh_bin_obs c i kw nb) ls /\ forall e, In e (List.concat ls) <-> In e (obs_list i kw nb)).
    { unfold obs_list, lh_bin_obs. cbv zeta. destruct (_ && _)%bool; eexists; (split; [repeat (constructor; [apply W|]); constructor|]); cbn [List.concat app]; intros e;
        (split; intros I; repeat (destruct I as [<-|I]; [hit|]); contradiction). }
    destruct F as (ls & F1 & F2), F' as (ls' & F1' & F2'). rewrite (named_all _ _ _ _ F1), (named_all _ _ _ _ F1'). split.
    - intros [(-> & base & -> & I)|(-> & base & -> & I)]; [left|right]; (split; [reflexivity|]); exists base; (split; [reflexivity|]); [now apply F2|now apply F2'].
    - intros [(-> & base & -> & I)|(-> & base & -> & I)]; [left|right]; (split; [reflexivity|]); exists base; (split; [reflexivity|]); [now apply F2|now apply F2'].
  Qed.
End Names.
