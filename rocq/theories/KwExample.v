(** A concrete module: options, block and a Spectra whose amplitude is sigma_8. *)
From Coq Require Import ZArith Lia Lra.
From Verif Require Import Base Spec Interp QuadFacts InterpFacts HodModel PkModel AddModel AddSpec PipeModel PipeSpec PipeFacts PipeFacts2 PipeFacts3 PipeFacts4 PipeFacts5 PipeFacts6
  OptModel OptSpec BaseFacts OptFacts OptFacts2 OptFacts3 OptFacts4 OptFacts5 KwModel KwSpec KwFacts KwFacts2 KwFacts3 KwFacts4 KwFacts5.
Open Scope string_scope.

Definition kw_ini : options := fun n => dget
  [("p_mm", OBool true); ("p_gg", OBool true); ("p_II", OBool true); ("hod_model", OStr "Zheng"); ("poisson_type", OStr "constant");
   ("log10_obs_min_hod", OArr [8; 9]%R); ("log10_obs_max_hod", OArr [9; 10]%R); ("zmin_hod", OArr [0; 0]%R); ("zmax_hod", OArr [1; 1]%R);
   ("nz_hod", OInt 5); ("nobs_hod", OInt 30);
   ("hod_section_name_ia", OStr "hod_ia"); ("observables_file_ia", OStr "red.txt"); ("nobs_ia", OInt 40);
   ("log_mass_min", OInt 10); ("nk", OInt 4); ("zmax_hmf", OInt 2); ("nonlinear_mode", OStr "None")] n.
Definition kw_module : module_config :=
  match setup "ValueError" "x" kw_ini false as r return match r with Ok _ => module_config | Err _ => unit end with Ok m => m | Err _ => tt end.
Lemma kw_setup : setup "ValueError" "x" kw_ini false = Ok kw_module.
Proof. reflexivity. Qed.
(** sigma_8 is [x]; everything else that is a number is 1. *)
Definition kw_block (x : R) : block := fun s n =>
  if String.eqb s "matter_power_lin" then dget [("z", VArr [0; 3]%R); ("k_h", VArr [1; 10]%R); ("p_k", VTab [[8; 4]; [2; 1]]%R)] n
  else if String.eqb n "sigma_8" then Some (VNum x) else if String.eqb n "A_s" then None else Some (VNum 1).
Definition kw_bad : block := fun s n => if String.eqb n "wa" then None else kw_block 1 s n.
Definition amplitude (o : store nat) : R := match o "sigma_8" with KVal (Some (VNum x)) => x | _ => 0%R end.
Definition kw_spectra : spectra nat :=
  {| s_check := fun _ _ => Ok tt; s_valid := fun _ => Ok tt; s_nz := fun _ => 2%nat; s_z := fun _ => INR; s_nk := fun _ => 2%nat; s_k := fun _ k => (INR k + 1)%R;
     s_spec := fun o _ => Ok {| pk_1h := fun _ z k => (amplitude o * (1 + INR z))%R; pk_2h := fun _ z k => (amplitude o * INR k)%R;
                              pk_tot := fun _ z k => (amplitude o * (1 + INR z) + amplitude o * INR k)%R; pk_bias := Some (fun _ _ _ => 1%R) |};
     s_matter := fun _ => Ok tt; s_bins := fun _ => Ok 2%nat; s_obs_bins := fun _ => Ok None; s_default := fun _ => KVal nat None;
     s_bnl := fun _ => Ok 0%nat |}.
Notation kw_ext := (module_ext nat "ValueError" "x" kw_spectra kw_module).
Notation kw_start := (start nat "ValueError" "x" kw_spectra kw_module).
Lemma kw_readable x : readable (kw_block x) (profile_section kw_ini) (m_hmf kw_module).
Proof.
  split; [repeat constructor; cbn; discriminate|]. split; [repeat (apply Forall_cons; [right; exists 1%R; reflexivity|]); apply Forall_nil|].
  split; [right; exists 1%R; reflexivity|]. split; [|cbn; lia].
  exists [0; 3]%R, [1; 10]%R, [[8; 4]; [2; 1]]%R. split; [repeat split; repeat constructor|]. split; [discriminate|].
  intros i L. change (h_nz (m_hmf kw_module)) with 15%nat in L. change (h_zvec (m_hmf kw_module)) with (linspace 0 2 15). cbn [nth List.length Nat.sub].
  assert (0 <= INR i <= 14)%R by (split; [apply pos_INR|]; replace 14%R with (INR 14) by (cbn; lra); apply le_INR; lia).
  rewrite linspace_eq by lia. change (15 - 1)%nat with 14%nat. replace (INR 14) with 14%R by (cbn; lra). lra.
Qed.
Lemma two_sorted : sorted [0; 3]%R.
Proof. intros i j L. destruct i as [|i], j as [|[|j]]; cbn in *; try lia; lra. Qed.
Lemma kw_runs x st : exists st' lg, execute kw_ext (config_of kw_module) (kw_block x) (st, []) = ((st', lg), Ok tt).
Proof.
  destruct (proj2 (kwargs_readable nat "ValueError" "x" kw_ini false kw_module kw_setup (kw_block x) [0; 3]%R eq_refl (le_n 2) two_sorted) (kw_readable x)) as [kw Ek].
  assert (E : snd (execute kw_ext (config_of kw_module) (kw_block x) (st, [])) = Ok tt).
  { unfold execute. unfold bindM at 1. unfold lift at 1.
    change (x_read_base kw_ext (kw_block x)) with
      (bind (read_kwargs nat "ValueError" "x" kw_module (kw_block x)) (fun kw => bind (read_align nat "x" kw_module (kw_block x)) (fun al => Ok (kw, al)))).
    rewrite Ek. cbn [bind].
    destruct (read_align nat "x" kw_module (kw_block x)) as [ka|] eqn:Ea; [|discriminate Ea]. cbn [bind].
    match goal with |- snd (bindM _ _ ?f _) = _ => change (snd (f None (st, [])) = Ok tt) end. cbv beta.
    match goal with |- snd (bindM _ _ ?f _) = _ => change (snd (f None (st, [])) = Ok tt) end. cbv beta.
    destruct (poisson_params (x_missing kw_ext) (kw_block x) (g_poisson (config_of kw_module))) as [pp|] eqn:E1; [|discriminate E1].
    destruct (hod_params (kw_block x) (g_hod_values (config_of kw_module)) (g_hod_model (config_of kw_module)) (g_nbins (config_of kw_module))) as [hp|] eqn:E2; [|discriminate E2].
    match goal with |- snd (bindM _ _ ?f _) = _ => change (snd (f (Some (pp, hp, g_settings (config_of kw_module))) (st, [])) = Ok tt) end. cbv beta.
    destruct (align_params (kw_block x) (g_pop1 (config_of kw_module)) (g_central (config_of kw_module)) (g_satellite (config_of kw_module))) as [d|] eqn:E3; [|discriminate E3].
    match goal with |- snd (bindM _ _ ?f _) = _ => change (snd (f (Some d) (st, [])) = Ok tt) end. cbv beta.
    match goal with |- snd (bindM _ _ ?f _) = _ => change (snd (f None (st, [])) = Ok tt) end. cbv beta zeta.
    pose proof (keywords_are_parameters nat "ValueError" "x" kw_spectra kw_module (kw_block x) (kw, ka) None None (Some (pp, hp, g_settings (config_of kw_module))) (Some d)) as P.
    destruct P as (P1 & _ & P2).
    { split; [cbn [x_read_base module_ext]; rewrite Ek; cbn [bind]; rewrite Ea; reflexivity|]. split; [reflexivity|]. split; [reflexivity|].
      split; [exists pp, hp; split; [exact E1|]; split; [exact E2|reflexivity]|]. exists d. split; [exact E3|reflexivity]. }
    set (q := x_full kw_ext (kw, ka) None None (Some (pp, hp, g_settings (config_of kw_module))) (Some d)) in *. clearbody q.
    assert (U : forall o, snd (x_update kw_ext o q) = Ok tt).
    { intros o. cut (snd (set_all nat kw_spectra o q) = Ok tt); [cbn [x_update module_ext]; unfold update_all; destruct (set_all nat kw_spectra o q); cbn; intros ->; reflexivity|]. apply (set_known nat kw_spectra q); [|reflexivity|exact P1]. intros n I. apply P2 in I. unfold known. apply existsb_exists. exists n. split; [exact I|apply String.eqb_refl]. }
    clear - U. unfold bindM at 1. specialize (U (p_power kw_ext st)).
    unfold update_power, bindM at 1, get. cbn [fst snd].
    destruct (x_update kw_ext (p_power kw_ext st) q) as [o' r]. cbn [snd] in U. subst r. reflexivity. }
  destruct (execute kw_ext (config_of kw_module) (kw_block x) (st, [])) as [[st' lg] r]. cbn in E. subst r. eauto.
Qed.
Lemma kw_unreadable : ~ readable kw_bad (profile_section kw_ini) (m_hmf kw_module).
Proof.
  intros (N & _). rewrite Forall_forall in N. apply (N ("cosmological_parameters", "wa")); [cbn; tauto|reflexivity].
Qed.
