(** Proofs about execute as a whole. *)
From Coq Require Import Decimal DecimalString Ascii.
From Verif Require Import Base Spec Quad Interp BaseFacts QuadFacts InterpFacts HodModel PkModel AddModel AddSpec AddFacts AddFacts2 PipeModel PipeSpec PipeFacts PipeFacts2.
Open Scope string_scope.

Section Whole.
  Variable X : ext.
  Lemma mode_dec c m : mode_is c m = if option_eq_dec (g_mode c) m then true else false.
  Proof.
    unfold mode_is. destruct (g_mode c) as [x|]; destruct (option_eq_dec _ m) as [E|N]; try congruence.
    - injection E as ->. now rewrite String.eqb_refl.
    - apply String.eqb_neq. congruence.
  Qed.
  Definition base_params (b : block) (q : prm (xa X)) := request_single X b q.
  Definition heap_of (o : obj (xa X)) : nat -> obj (xa X) := fun _ => o.

  Lemma bnl_log c b st l l' : snd (bnl_step X c b (st, l)) = snd (bnl_step X c b (st, l')).
  Proof.
    unfold bnl_step, bindM, get, lift, put, ret. cbn [fst snd].
    destruct (Nat.eqb (g_update_bnl c) 0); [reflexivity|].
    destruct (Nat.eqb _ 0); [destruct (x_compute_bnl X b)|destruct (p_cached X st)]; reflexivity.
  Qed.

  (** The exact log. *)
  Definition part (want : bool) (l : list write) : list write := if want then l else [].
  Record run_data := {
    d_in : inputs X; d_o1 : obj (xa X); d_n1 : nat; d_obs : list write;
    d_mm : arr3 * arr3 * arr3; d_gg : arr3 * arr3 * arr3; d_gm : arr3 * arr3 * arr3;
    d_o2 : obj (xa X); d_n2 : nat; d_ii : arr3 * arr3 * arr3; d_gi : arr3 * arr3 * arr3; d_mi : arr3 * arr3 * arr3 }.
  Definition full_log (c : config) (r : run_data) : list write :=
    (matter_keys ++ part (want_hod c) (hod_keys (g_hod_section c) (d_n1 r)) ++ d_obs r ++
     part (andb (g_mm c) (negb (g_response c))) (pk_grid "matter_power_nl" "" (d_mm r) 0) ++
     part (g_gg c) (save_bins "galaxy_power" (Some ("galaxy_linear_bias", "bg_linear")) (d_n1 r) (d_gg r)) ++
     part (g_gm c) (save_bins "matter_galaxy_power" (Some ("galaxy_matter_linear_bias", "bgm_linear")) (d_n1 r) (d_gm r)) ++
     part (alignment c) (hod_keys (g_hod_section_ia c) (d_n2 r) ++
       part (g_II c) (save_bins "intrinsic_power" None (d_n2 r) (d_ii r)) ++
       part (g_gI c) (save_bins "galaxy_intrinsic_power" None (d_n2 r) (d_gi r)) ++
       part (g_mI c) (save_bins "matter_intrinsic_power" None (d_n2 r) (d_mi r))))%list.
  Definition run_ok (c : config) (b : block) (st st' : pst X) (r : run_data) : Prop :=
    let i := d_in r in let q := kwargs X i in let p := request_single X b q in
    reads X c b st i /\
    x_update X (p_power X st) q = (d_o1 r, Ok tt) /\
    x_matter X (d_o1 r) = Ok tt /\
    (want_hod c = true -> x_bins X (d_o1 r) = Ok (d_n1 r)) /\
    (d_obs r = [] \/ want_hod c = true /\ g_save_obs c = true /\
       exists n, x_obs_bins X (d_o1 r) = Ok (Some n) /\ d_obs r = obs_keys (g_obs_section c) n) /\
    (orb (g_mm c) (g_response c) = true -> triple X p (heap_of (d_o1 r)) "mm" (d_mm r)) /\
    (g_gg c = true -> triple X p (heap_of (d_o1 r)) "gg" (d_gg r)) /\
    (g_gm c = true -> triple X p (heap_of (d_o1 r)) "gm" (d_gm r)) /\
    (alignment c = true ->
       x_update X (d_o1 r) (x_hod X (g_ia_1 c)) = (d_o2 r, Ok tt) /\ x_bins X (d_o2 r) = Ok (d_n2 r)) /\
    (alignment c = true -> g_II c = true -> exists h, h 0%nat = d_o2 r /\ triple X (alignment_request X c b i) h "ii" (d_ii r)) /\
    (alignment c = true -> g_gI c = true -> exists h, h 0%nat = d_o2 r /\ triple X (alignment_request X c b i) h "gi" (d_gi r)) /\
    (alignment c = true -> g_mI c = true -> exists h, h 0%nat = d_o2 r /\ triple X (alignment_request X c b i) h "mi" (d_mi r)) /\
    p_power X st' = (if alignment c then d_o2 r else d_o1 r).

  Lemma execute_ok c b st st' l lg : execute X c b (st, l) = ((st', lg), Ok tt) ->
    exists r, run_ok c b st st' r /\ lg = (l ++ full_log c r)%list.
  Proof.
    intro H. unfold execute in H.
    apply bindM_ok in H as (s1 & base & H1 & H). apply lift_ok in H1 as [-> Ebase].
    apply bindM_ok in H as (s2 & beta & H1 & H).
    assert (S2 : snd s2 = l /\ p_power X (fst s2) = p_power X st /\ 
       if option_eq_dec (g_mode c) "bnl" then exists t, snd (bnl_step X c b (st, [])) = Ok t /\ beta = Some t else beta = None).
    { apply when_ok in H1 as [(E & v & -> & B)|(E & -> & ->)]; rewrite mode_dec in E; destruct (option_eq_dec (g_mode c) "bnl"); try discriminate.
      - pose proof (bnl_log c b st l []) as BL. rewrite B in BL. cbn [snd] in BL.
        apply bnl_step_ok in B as (B1 & B2 & _). cbn in B1, B2. repeat split; auto. exists v. now split.
      - repeat split. }
    clear H1. destruct S2 as (L2 & P2 & Ebeta).
    apply bindM_ok in H as (s3 & nl & H1 & H).
    assert (S3 : s3 = s2 /\ if orb (g_response c) (if option_eq_dec (g_mode c) "fortuna" then true else false)
       then exists n, x_read_nl X b = Ok n /\ nl = Some n else nl = None).
    { rewrite <- mode_dec. apply when_ok in H1 as [(E & v & -> & B)|(E & -> & ->)]; rewrite E; [apply lift_ok in B as [-> B]|]; eauto. }
    clear H1. destruct S3 as (-> & Enl).
    apply bindM_ok in H as (s3 & hod & H1 & H).
    assert (S3 : s3 = s2 /\ if orb (galaxy c) (alignment c)
      then exists pp hp, poisson_params (x_missing X) b (g_poisson c) = Ok pp /\
          hod_params b (g_hod_values c) (g_hod_model c) (g_nbins c) = Ok hp /\ hod = Some (pp, hp, g_settings c)
      else hod = None).
    { apply when_ok in H1 as [(E & v & -> & B)|(E & -> & ->)]; rewrite E; [|auto].
      apply bindM_ok in B as (s4 & pp & B1 & B). apply lift_ok in B1 as [-> B1].
      apply bindM_ok in B as (s4 & hp & B2 & B). apply lift_ok in B2 as [-> B2]. apply ret_ok in B as [-> ->]. eauto 8. }
    clear H1. destruct S3 as (-> & Ehod).
    apply bindM_ok in H as (s3 & al & H1 & H).
    assert (S3 : s3 = s2 /\ if alignment c then exists d, align_params b (g_pop1 c) (g_central c) (g_satellite c) = Ok d /\ al = Some d
       else al = None).
    { apply when_ok in H1 as [(E & v & -> & B)|(E & -> & ->)]; rewrite E; [apply lift_ok in B as [-> B]|]; eauto. }
    clear H1. destruct S3 as (-> & Eal).
    apply bindM_ok in H as (s3 & al2 & H1 & H).
    assert (S3 : s3 = s2 /\ if andb (g_split c) (alignment c)
       then exists d d2, al = Some d /\ align_params_2 b (g_pop2 c) (g_central c) (g_satellite c) d = Ok d2 /\ al2 = Some d2 else True).
    { apply when_ok in H1 as [(E & v & -> & B)|(E & -> & ->)]; rewrite E; [|cbn; auto].
      destruct (alignment c).
      - destruct Eal as (d & _ & ->). apply lift_ok in B as [-> B]. cbn. eauto 6.
      - subst al. apply ret_ok in B as [-> _]. cbn. auto. }
    clear H1. destruct S3 as (-> & Eal2).
    set (i := {| i_base := base; i_beta := beta; i_nl := nl; i_hod := hod; i_align := al; i_align2 := al2 |} : inputs X).
    assert (RD : reads X c b st i) by (unfold reads, i; cbn; tauto).
    set (q := x_full X base beta nl hod al) in *.
    cbv zeta in H.
    apply bindM_ok in H as (s3 & t3 & H1 & H). apply update_power_ok in H1 as (U1 & L3 & _ & _). rewrite P2 in U1. rewrite L2 in L3.
    apply bindM_ok in H as (s4 & o1 & H1 & H). apply power_ok in H1 as [-> ->].
    set (o1 := p_power X (fst s3)) in *.
    set (p := request_single X b q).
    assert (V0 : holds X (new_results X b q None None None o1) p (heap_of o1)).
    { split; [apply new_ok|]. split; reflexivity. }
    set (u0 := new_results X b q None None None o1) in *. clearbody u0.
    apply bindM_ok in H as (s4 & t4 & H1 & H).
    assert (XM : x_matter X o1 = Ok tt).
    { apply bindM_ok in H1 as (s5 & o & G1 & G). apply power_ok in G1 as [-> ->]. apply bindM_ok in G as (s6 & [] & G1 & G).
      now apply lift_ok in G1 as [-> G1]. }
    apply save_matter_ok in H1. rewrite L3 in H1.
    apply bindM_ok in H as (s5 & bins & H2 & H).
    assert (S5 : exists n, match bins with Some n => n | None => 0%nat end = n /\ fst s5 = fst s3 /\
       snd s5 = (l ++ matter_keys ++ part (want_hod c) (hod_keys (g_hod_section c) n))%list /\ (want_hod c = true -> x_bins X o1 = Ok n)).
    { apply when_ok in H2 as [(E & n & -> & B)|(E & -> & ->)]; rewrite E.
      - apply save_hod_ok in B as [-> B]. subst s4. cbn in B |- *. exists n. repeat split; auto. now rewrite <- app_assoc.
      - subst s4. cbn. exists 0%nat. repeat split; try discriminate. }
    clear H2. destruct S5 as (n1 & En & P5 & L5 & XB).
    apply bindM_ok in H as (s6 & t6 & H2 & H).
    assert (S6 : exists ob, fst s6 = fst s3 /\ snd s6 = (snd s5 ++ ob)%list /\
       (ob = [] \/ want_hod c = true /\ g_save_obs c = true /\ exists n, x_obs_bins X o1 = Ok (Some n) /\ ob = obs_keys (g_obs_section c) n)).
    { unfold when_ in H2 at 1. destruct (want_hod c).
      - apply bindM_ok in H2 as (s7 & [n|] & B1 & B2); apply lift_ok in B1 as [-> B1].
        + unfold when_ in B2. destruct (g_save_obs c).
          * apply save_obs_ok in B2 as ->. exists (obs_keys (g_obs_section c) n). repeat split; auto. right. eauto 6.
          * apply ret_ok in B2 as [-> _]. exists []. rewrite app_nil_r. repeat split; auto.
        + apply ret_ok in B2 as [-> _]. exists []. rewrite app_nil_r. repeat split; auto.
      - apply ret_ok in H2 as [-> _]. exists []. rewrite app_nil_r. repeat split; auto. }
    clear H2. destruct S6 as (ob & P6 & L6 & Eob). rewrite L5 in L6. rewrite En in H. clear L5 P5 s5 En bins.
    cbv zeta in H.
    apply bindM_ok in H as (s7 & u1 & H2 & H).
    assert (S7 : exists v, holds X u1 p (heap_of o1) /\ fst s7 = fst s3 /\
       snd s7 = (snd s6 ++ part (andb (g_mm c) (negb (g_response c))) (pk_grid "matter_power_nl" "" v 0))%list /\
       (orb (g_mm c) (g_response c) = true -> triple X p (heap_of o1) "mm" v)).
    { destruct (orb (g_mm c) (g_response c)) eqn:E.
      - apply bindM_ok in H2 as (s8 & [u' v] & B & H2). apply (ask_ok X _ _ _ _ _ _ _ _ V0) in B as (-> & V1 & T).
        apply bindM_ok in H2 as (s9 & y & B & H2). apply ret_ok in H2 as [-> ->]. exists v. cbn [fst snd] in *. unfold when_ in B.
        destruct (g_response c); cbn [negb andb] in *.
        + apply ret_ok in B as [-> _]. rewrite andb_false_r. cbn. rewrite app_nil_r. repeat split; try apply V1; auto; apply T.
        + rewrite orb_false_r in E. rewrite E. cbn [andb]. unfold log in B. injection B as <- _. cbn [fst snd]. repeat split; try apply V1; auto; apply T.
      - apply ret_ok in H2 as [-> ->]. apply orb_false_iff in E as [E1 E2]. rewrite E1, E2.
        exists ({| r_rows := 0; r_val := fun _ _ _ => 0%R |}, {| r_rows := 0; r_val := fun _ _ _ => 0%R |}, {| r_rows := 0; r_val := fun _ _ _ => 0%R |}).
        cbn. rewrite app_nil_r. repeat split; try apply V0; auto; discriminate. }
    clear H2. destruct S7 as (vmm & V1 & P7 & L7 & Tmm). rewrite L6 in L7. clear L6 P6 s6.
    apply bindM_ok in H as (s8 & u2 & H2 & H). apply (do_bins_ok X _ _ _ _ _ _ _ _ _ _ _ V1) in H2 as (V2 & vgg & Tgg & ->).
    apply bindM_ok in H as (s9 & u3 & H2 & H). apply (do_bins_ok X _ _ _ _ _ _ _ _ _ _ _ V2) in H2 as (V3 & vgm & Tgm & ->).
    cbn [fst snd] in H. rewrite L7 in H. rewrite P7 in H. clear L7 P7 s7.
    unfold when_ in H. destruct (alignment c) eqn:AL.
    - apply bindM_ok in H as (s10 & t10 & H2 & H). apply update_power_ok in H2 as (U2 & L10 & _ & _). cbn [fst snd] in U2, L10.
      fold o1 in U2.
      apply bindM_ok in H as (s11 & n2 & H2 & H). apply save_hod_ok in H2 as (-> & XB2).
      apply bindM_ok in H as (s12 & o2 & H2 & H). apply power_ok in H2 as [-> ->]. cbn [fst snd] in H.
      set (o2 := p_power X (fst s10)) in *. cbv zeta in H.
      set (u4 := if g_split c then _ else _) in H.
      assert (V4 : exists h, h 0%nat = o2 /\ holds X u4 (alignment_request X c b i) h).
      { unfold u4, alignment_request. destruct (g_split c).
        - exists (heap_of o2). split; [reflexivity|]. split; [apply new_ok|]. split; reflexivity.
        - destruct V3 as (V3 & P3 & H3). exists (fun x => if Nat.eqb x 0 then o2 else us_heap u3 x). split; [reflexivity|].
          assert (S0 : same_sources p (us_par u3)) by (rewrite P3; apply same_refl).
          destruct (step_quiet p u3 (ECaller 0%nat o2) S0 V3) as [_ V5]; [right; reflexivity|].
          split; [exact V5|]. split; [exact P3|reflexivity]. }
      destruct V4 as (h & Eh & V4). clearbody u4.
      apply bindM_ok in H as (s13 & u5 & H2 & H). apply (do_bins_ok X _ _ _ _ _ _ _ _ _ _ _ V4) in H2 as (V5 & vii & Tii & ->).
      apply bindM_ok in H as (s14 & u6 & H2 & H). apply (do_bins_ok X _ _ _ _ _ _ _ _ _ _ _ V5) in H2 as (V6 & vgi & Tgi & ->).
      apply bindM_ok in H as (s15 & u7 & H2 & H). apply (do_bins_ok X _ _ _ _ _ _ _ _ _ _ _ V6) in H2 as (V7 & vmi & Tmi & ->).
      apply ret_ok in H as [H _]. cbn [fst snd] in H. injection H as Hst Hlg.
      exists {| d_in := i; d_o1 := o1; d_n1 := n1; d_obs := ob; d_mm := vmm; d_gg := vgg; d_gm := vgm; d_o2 := o2; d_n2 := n2;
                d_ii := vii; d_gi := vgi; d_mi := vmi |}.
      split.
      + unfold run_ok. cbn [d_in d_o1 d_n1 d_obs d_mm d_gg d_gm d_n2 d_ii d_gi d_mi d_o2]. cbv zeta.
        split; [exact RD|]. split; [exact U1|]. split; [exact XM|]. split; [exact XB|]. split; [exact Eob|]. split; [exact Tmm|].
        split; [exact Tgg|]. split; [exact Tgm|]. split; [intros _; split; assumption|].
        split; [intros _ E; exists h; split; [exact Eh|]; now apply Tii|].
        split; [intros _ E; exists h; split; [exact Eh|]; now apply Tgi|].
        split; [intros _ E; exists h; split; [exact Eh|]; now apply Tmi|].
        rewrite AL. subst st'. reflexivity.
      + rewrite Hlg, L10. unfold full_log. cbn [d_n1 d_obs d_mm d_gg d_gm d_n2 d_ii d_gi d_mi]. rewrite AL. unfold part. cbn [app].
        rewrite <- !app_assoc. reflexivity.
    - apply ret_ok in H as [H _]. injection H as Hst Hlg.
      exists {| d_in := i; d_o1 := o1; d_n1 := n1; d_obs := ob; d_mm := vmm; d_gg := vgg; d_gm := vgm; d_o2 := o1; d_n2 := 0;
                d_ii := vmm; d_gi := vmm; d_mi := vmm |}.
      split.
      + unfold run_ok. cbn [d_in d_o1 d_n1 d_obs d_mm d_gg d_gm d_n2 d_ii d_gi d_mi d_o2]. cbv zeta.
        split; [exact RD|]. split; [exact U1|]. split; [exact XM|]. split; [exact XB|]. split; [exact Eob|]. split; [exact Tmm|].
        split; [exact Tgg|]. split; [exact Tgm|]. rewrite AL. do 4 (split; [discriminate|]). subst st'. reflexivity.
      + rewrite Hlg. unfold full_log. cbn [d_n1 d_obs d_mm d_gg d_gm d_n2 d_ii d_gi d_mi]. rewrite AL. unfold part at 6. rewrite app_nil_r.
        rewrite <- !app_assoc. reflexivity.
  Qed.
End Whole.
