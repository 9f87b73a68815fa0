(** Vocabulary for the statements about the legacy radial alignment module. *)
From Coq Require Import ZArith.
From Verif Require Import Base Interp FftModel PipeModel OptModel ChainModel IaModel UellModel AupSpec LiaSpec LhSpec LhSpec2.
Open Scope R_scope.

(** An integer option with a default. *)
Definition whole (o : options) (n : string) (d v : Z) : Prop := o n = Some (OInt v) \/ (o n = None /\ v = d).
(** The arguments of SatelliteAlignment (src/onepower/ia.py) with the method 'hankel' and without truncation; tables by
    redshift and mass.  Its wavenumbers run from 0.001 to 1000. *)
Record satellites := { sa_nmass : Z; sa_kmin : R; sa_kmax : R; sa_nk : Z; sa_ell_max : Z; sa_hankel : Z; sa_slope : R; sa_amplitude : list R;
  sa_z : list R; sa_mass : list R; sa_c : list (list R); sa_rs : list (list R); sa_rvir : list R }.
(** What options and block say. *)
Definition sat_options (o : options) (sfx : string) (s : satellites) : Prop :=
  whole o "nmass" 5 (sa_nmass s) /\ number o "kmin" (1 / 1000) (sa_kmin s) /\ number o "kmax" 1000 (sa_kmax s) /\ whole o "nk" 10 (sa_nk s) /\
  whole o "ell_max" 6 (sa_ell_max s) /\ whole o "N_hankel" 350 (sa_hankel s) /\ exists name, text o "output_suffix" "" name /\ part_of_name (lower name) sfx.
Definition sat_halos (b : dblock) (s : satellites) : Prop :=
  b "concentration_m"%string "z"%string = Some (BArr (sa_z s)) /\ b "concentration_m"%string "m_h"%string = Some (BArr (sa_mass s)) /\
  b "concentration_m"%string "c"%string = Some (BTab (sa_c s)) /\ b "nfw_scale_radius_m"%string "rs"%string = Some (BTab (sa_rs s)) /\
  b "virial_radius"%string "rvir_m"%string = Some (BArr (sa_rvir s)).
Definition sat_says (o : options) (b : dblock) (sfx : string) (s : satellites) : Prop :=
  sat_options o sfx s /\ sat_halos b s /\ reads b (parameters_of sfx) "gamma_1h_radial_slope" (sa_slope s) /\
  b (satellite_section sfx) "alignment_1h"%string = Some (BArr (sa_amplitude s)).
(** Every quantity has a value at every mass and redshift, and no mass is there twice. *)
Definition sat_fits (s : satellites) : Prop :=
  let n := List.length (sa_mass s) in
  List.length (sa_amplitude s) = List.length (sa_z s) /\ NoDup (sa_mass s) /\ List.length (sa_rvir s) = n /\
  List.length (sa_c s) = List.length (sa_z s) /\ (forall r, In r (sa_c s) -> List.length r = n) /\
  List.length (sa_rs s) = List.length (sa_z s) /\ (forall r, In r (sa_rs s) -> List.length r = n).
(** [idx] goes from the first to the last of [size] masses, in order, in at least [n] steps. *)
Definition sampling (size : nat) (n : Z) (idx : list nat) : Prop :=
  hd 0%nat idx = 0%nat /\ last idx 0%nat = (size - 1)%nat /\ (n <= Z.of_nat (List.length idx))%Z /\
  (forall i j x y, (i < j)%nat -> nth_error idx i = Some x -> nth_error idx j = Some y -> (x < y < size)%nat) /\
  (Z.of_nat size = n -> idx = seq 0 size).
(** The multipoles of the class at redshift [j] and mass [m] of the unsampled tables. *)
Definition sat_moment (ht : Z -> R -> (R -> R) -> R -> R) (s : satellites) (j m : nat) (k : R) (e : nat) : R :=
  uell_hankel (ht (sa_hankel s)) (2 * e) (cell (sa_rs s) j m) (cell (sa_c s) j m) (nth m (sa_rvir s) 0) (nth j (sa_amplitude s) 0) (sa_slope s) false k.
Definition sat_k (s : satellites) (i : nat) : R := logspace (log10 (sa_kmin s)) (log10 (sa_kmax s)) (Z.to_nat (sa_nk s)) i.

(** The class: its sampled quantities, of which the tables are lists of columns, and wkm_f_ell at redshift [j], the sampled
    mass [m] and wavenumber [k]. *)
Definition columns (t : list (list R)) (n : nat) : list (list R) := map (fun m => map (fun r => nth m r 0) t) (seq 0 n).
Definition class_mass (s : satellites) : res (list R) := downsample1 true (List.length (sa_mass s)) (Z.to_nat (sa_nmass s)) (sa_mass s).
Definition class_rvir (s : satellites) : res (list R) := downsample1 true (List.length (sa_mass s)) (Z.to_nat (sa_nmass s)) (sa_rvir s).
Definition class_table (s : satellites) (t : list (list R)) : res (list (list R)) :=
  downsample2 true (List.length (sa_mass s)) (Z.to_nat (sa_nmass s)) (columns t (List.length (sa_mass s))).
Definition class_wkm (G : R -> R) (ht : Z -> R -> (R -> R) -> R -> R) (s : satellites) (j m : nat) (k : R) : res R :=
  c <- class_table s (sa_c s) ;; rs <- class_table s (sa_rs s) ;; rv <- class_rvir s ;;
  wkm_f_ell G (sa_slope s) (sa_ell_max s) (List.length (ell_values (sa_ell_max s)))
    (fun e => uell_hankel (ht (sa_hankel s)) (2 * e) (nth j (nth m rs []) 0) (nth j (nth m c []) 0) (nth m rv 0) (nth j (sa_amplitude s) 0) (sa_slope s) false k).
(** No earlier virial radius, and at no redshift an earlier concentration or scale radius, is that of the last mass. *)
Definition no_ties (s : satellites) : Prop :=
  forall m, (m < List.length (sa_mass s) - 1)%nat -> nth m (sa_rvir s) 0 <> last (sa_rvir s) 0 /\
    forall j, (j < List.length (sa_z s))%nat ->
      cell (sa_c s) j m <> cell (sa_c s) j (List.length (sa_mass s) - 1) /\ cell (sa_rs s) j m <> cell (sa_rs s) j (List.length (sa_mass s) - 1).
(** The entry of redshift [j] for the sample [sfx]. *)
Definition sat_name (n : string) (j : nat) (sfx : string) : string := (n ++ dec j ++ sfx)%string.
(** The names of a run. *)
Definition sat_written (nz : nat) (sfx n : string) : Prop :=
  n = ("z" ++ sfx)%string \/ exists j, (j < nz)%nat /\ (n = sat_name "mass_" j sfx \/ n = sat_name "k_h_" j sfx \/ n = sat_name "w_km_" j sfx).
