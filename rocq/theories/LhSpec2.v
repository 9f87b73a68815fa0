(** More vocabulary for the statements about the legacy HOD module: its own options. *)
From Coq Require Import ZArith.
From Verif Require Import Base Interp OptModel ChainModel HodModel AupSpec LiaSpec LhSpec.
Open Scope R_scope.

(** A switch and a number with their defaults. *)
Definition switch (o : options) (n : string) (d v : bool) : Prop := o n = Some (OBool v) \/ (o n = None /\ v = d).
Definition number (o : options) (n : string) (d x : R) : Prop := gives o n x \/ (o n = None /\ x = d).
(** Options of the module that HOD does not have. *)
Record module_options := { mo_model : string; mo_save : bool; mo_mode : string; mo_zmed : R }.
Definition options_say (o : options) (m : module_options) : Prop :=
  text o "hod_model" "Cacciato" (mo_model m) /\ switch o "save_observable" true (mo_save m) /\ text o "observable_mode" "obs_z" (mo_mode m) /\ number o "z_median" (1 / 10) (mo_zmed m).
(** Grids the module takes. *)
Definition grids_fit (s : hod_settings) : Prop :=
  match hs_file s with
  | Some t => (2 <= List.length t)%nat /\ forall z lo hi, nth_error t 0 = Some (z, lo, hi) -> lo <= hi
  | None => List.length (hs_obs_max s) = List.length (hs_obs_min s) /\ List.length (hs_zmin s) = List.length (hs_obs_min s) /\ List.length (hs_zmax s) = List.length (hs_obs_min s)
  end /\ (0 < nbins s)%nat /\ (0 < nz s)%nat /\ (0 < hs_nobs s)%nat.
(** [y] is interpolated at [q] from the array, or the column [m] of the table, in the second entry on the nodes in the first. *)
Definition interpolated (f : fill) (vz v : option bval) (q y : R) : Prop :=
  exists z a, vz = Some (BArr z) /\ v = Some (BArr a) /\ List.length a = List.length z /\ y = interp1d f (List.length z) (fun j => nth j z 0) (fun j => nth j a 0) q.
Definition interpolated_column (f : fill) (vz v : option bval) (m : nat) (q y : R) : Prop :=
  exists z t, vz = Some (BArr z) /\ v = Some (BTab t) /\ List.length t = List.length z /\ y = interp1d f (List.length z) (fun j => nth j z 0) (fun j => nth m (nth j t []) 0) q.
