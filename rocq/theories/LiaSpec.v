(** Vocabulary for the statements about ia_amplitudes.py. *)
From Coq Require Import ZArith.
From Verif Require Import Base Interp OptModel ChainModel IaModel AupSpec.
Open Scope R_scope.

(** The block has the number [x] there. *)
Definition reads (b : dblock) (s n : string) (x : R) : Prop := b s n = Some (BDbl x) \/ exists k, b s n = Some (BInt k) /\ x = IZR k.
Definition may_read (b : dblock) (s n : string) (v : option R) : Prop := match v with Some x => reads b s n x | None => b s n = None end.
Definition gives (o : options) (n : string) (x : R) : Prop := o n = Some (ODbl x) \/ exists k, o n = Some (OInt k) /\ x = IZR k.
(** The sections. *)
Definition parameters_of (sfx : string) : string := ("intrinsic_alignment_parameters" ++ sfx)%string.
Definition central_section (sfx : string) : string := ("ia_large_scale_alignment" ++ sfx)%string.
Definition satellite_section (sfx : string) : string := ("ia_small_scale_alignment" ++ sfx)%string.
(** The arguments [a] of AlignmentAmplitudes (src/onepower/ia.py) say what options and block say;
    there is one pivot for centrals and satellites. *)
Definition described (columns : oval -> res (list (R * R))) (o : options) (b : dblock) (sfx : string) (a : amplitudes) : Prop :=
  let p := parameters_of sfx in
  o "central_IA_depends_on"%string = Some (OStr (am_central a)) /\ o "satellite_IA_depends_on"%string = Some (OStr (am_satellite a)) /\
  (exists zmin zmax, gives o "zmin" zmin /\ gives o "zmax" zmax /\ am_z a = linspace zmin zmax (am_nz a)) /\
  o "nz"%string = Some (OInt (Z.of_nat (am_nz a))) /\
  (exists name, text o "output_suffix" "" name /\ part_of_name (lower name) sfx) /\
  (am_central a = "luminosity"%string -> exists f gal, o "z_loglum_file_centrals"%string = Some f /\ columns f = Ok gal /\ am_file_cen a = Some gal) /\
  (am_satellite a = "luminosity"%string -> exists f gal, o "z_loglum_file_satellites"%string = Some f /\ columns f = Ok gal /\ am_file_sat a = Some gal) /\
  reads b p "gamma_2h_amplitude" (am_gamma2h a) /\ reads b p "gamma_1h_amplitude" (am_gamma1h a) /\
  (am_central a <> "constant"%string -> reads b p "beta" (am_beta_cen a)) /\ (am_satellite a <> "constant"%string -> reads b p "beta_sat" (am_beta_sat a)) /\
  may_read b p "beta_two" (am_beta_two a) /\
  may_read b p "L_pivot" (am_lpivot_cen a) /\ am_lpivot_sat a = am_lpivot_cen a /\
  may_read b p "M_pivot" (am_mpivot_cen a) /\ am_mpivot_sat a = am_mpivot_cen a.
(** The names a run writes for the dependences [cen] and [sat]. *)
Definition written_here (cen sat sfx s n : string) : Prop :=
  (s = central_section sfx /\ (n = "alignment_gi" \/ n = "instance" \/ (cen = "halo_mass" /\ (n = "M_pivot" \/ n = "beta")))%string) \/
  (s = satellite_section sfx /\ (n = "alignment_1h" \/ n = "instance" \/ (sat = "halo_mass" /\ (n = "M_pivot" \/ n = "beta_sat")))%string).
(** [f] over the redshifts. *)
Definition over_z (n : nat) (f : nat -> R) : bval := BArr (map f (seq 0 n)).
