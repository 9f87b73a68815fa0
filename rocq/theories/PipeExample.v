(** A concrete pipeline: the toy halo model of AddFacts2 behind execute. *)
From Verif Require Import Base Spec Interp HodModel PkModel AddModel AddSpec AddFacts AddFacts2 PipeModel PipeSpec PipeFacts PipeFacts2 PipeFacts3.
Open Scope string_scope.

Definition toy_ext : ext :=
  {| xa := toy; x_table := nat; x_base := R; x_nl := unit; x_missing := "BlockNameNotFound";
     x_read_base := fun b => match b "cosmological_parameters" "h0" with Some (VNum x) => Ok x | _ => Err "BlockNameNotFound" end;
     x_read_nl := fun _ => Ok tt;
     x_compute_bnl := fun b => match b "bnl" "table" with Some (VStr s) => Ok (String.length s) | _ => Err "bnl" end;
     x_update := fun _ q => (q, Ok tt);
     x_full := fun base _ _ _ _ => base;
     x_hod := fun d => match dget d "nobs" with Some (SNum n) => INR n | _ => 1%R end;
     x_two := fun d _ => match dget d "nobs" with Some (SNum n) => INR n | _ => 1%R end;
     x_grid := fun _ => ((2%nat, INR), (2%nat, fun k => INR k + 1)%R);
     x_matter := fun _ => Ok tt; x_bins := fun _ => Ok 2%nat; x_obs_bins := fun _ => Ok (Some 1%nat) |}.
Definition toy_config (second : nat) : config :=
  {| g_mm := true; g_gg := true; g_gm := true; g_gI := true; g_mI := true; g_II := true;
     g_response := false; g_split := true; g_mode := Some "bnl"; g_poisson := "power_law"; g_hod_model := "Zheng";
     g_settings := []; g_ia_1 := [("nobs", SNum 3)]; g_ia_2 := [("nobs", SNum second)];
     g_obs := [("obs_min", SArr []); ("obs_max", SArr []); ("zmin", SArr []); ("zmax", SArr []); ("nz", SNum 1)];
     g_save_obs := true; g_hod_section := "hod"; g_hod_values := "hod_parameters"; g_hod_section_ia := "hod_ia";
     g_obs_section := "stellar_mass_function"; g_pop1 := "_red"; g_pop2 := "_blue"; g_central := "halo_mass"; g_satellite := "constant";
     g_nbins := 2; g_update_bnl := 3 |}.
(** Every numeric value is present; the table is named. *)
Definition toy_block (name : string) : block := fun s n => if String.eqb s "bnl" then Some (VStr name) else Some (VNum 1).
Definition toy_start : pst toy_ext := Build_pst toy_ext 0 None (5%R : obj toy).

Lemma toy_succeeds second name st : (p_calls toy_ext st = 0)%nat ->
  exists st' lg, execute toy_ext (toy_config second) (toy_block name) (st, []) = ((st', lg), Ok tt).
Proof.
  intro Z. assert (E : snd (execute toy_ext (toy_config second) (toy_block name) (st, [])) = Ok tt).
  { destruct st as [n t o]. cbn in Z. subst n. reflexivity. }
  destruct (execute toy_ext (toy_config second) (toy_block name) (st, [])) as [[st' lg] r]. cbn in E. subst r. eauto.
Qed.
Lemma free_user s : unnumbered s -> ~ In s pipeline_sections -> free_section s.
Proof.
  intros U N base n nb I L E. unfold bin_name in E. destruct (Nat.eq_dec n 1); [subst; contradiction|].
  apply U. rewrite E. apply (numbered_last base (S nb)).
Qed.
Lemma toy_sections second : free_section (g_hod_section (toy_config second)) /\ free_section (g_hod_section_ia (toy_config second)) /\ free_section (g_obs_section (toy_config second)).
Proof.
  repeat split; apply free_user; try (intro H; cbn in H; repeat (destruct H as [H|H]; [discriminate|]); exact H);
    intro H; cbn in H; repeat (destruct H as [H|H]; [discriminate|]); exact H.
Qed.
