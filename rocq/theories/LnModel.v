(** Model of cosmosis_modules/legacy/hod/hod_interface_no_loop.py, up to the making of its first HOD
    object.  Definitions only.  What follows that (219-330) is an argument, and so is the
    constructor of hmf's Component, which HaloOccupationDistribution (src/onepower/hod.py 48-91)
    hands its remaining arguments to.  Simplified as in LhModel; the arguments are kept as an
    association list. *)
From Coq Require Import ZArith.
From Verif Require Import Base Quad Interp FftModel PipeModel HodModel OptModel ChainModel PredModel MiniModel AupModel LiaModel LhModel.
Open Scope R_scope.

(** The value of an argument: a number or None, an array, a table, or the settings with their nobs. *)
Inductive karg := KNum (v : option R) | KArr (l : list R) | KTab (t : list (list R)) | KSettings (nobs : nat).

Section LnSetup.
  Variables missing wrong : string.
  Variable loadtxt : string -> res (list (R * R * R)).
  Variable opens : string -> res unit.
  Variable o : options.
  (** 59-157: the lines of hod_interface.py, then the settings (126-135). *)
  Definition ln_setup : res hconfig :=
    c <- lh_setup missing wrong loadtxt opens o ;;
    u <- (if OptModel.has_value o "observables_file" then f <- get_string missing wrong o "observables_file" None ;; Ok tt
          else lo <- get_array missing o "log10_obs_min" ;; hi <- get_array missing o "log10_obs_max" ;;
               z0 <- get_array missing o "zmin" ;; z1 <- get_array missing o "zmax" ;; n <- option_at missing o "nz" ;; Ok tt) ;;
    Ok c.
End LnSetup.

(** src/onepower/hod.py 74-82: the arguments the class takes itself. *)
Definition class_arguments : list string := ["cosmo"; "mass"; "dndlnm"; "halo_bias"; "z_vec"; "hod_settings"].
(** src/onepower/hod.py 748-763 and the dictionaries of Zheng and Zhai: the names of _defaults. *)
Definition class_defaults (model : string) : list string :=
  if String.eqb model "Cacciato" then
    ["log10_obs_norm_c"; "log10_m_ch"; "g1"; "g2"; "sigma_log10_O_c"; "norm_s"; "pivot"; "alpha_s"; "beta_s"; "b0"; "b1"; "b2"; "A_cen"; "A_sat"]
  else if String.eqb model "Zheng" then ["log10_Mmin"; "log10_M0"; "log10_M1"; "sigma"; "alpha"; "A_cen"; "A_sat"]
  else if String.eqb model "Zhai" then ["log10_Mmin"; "log10_Msat"; "log10_Mcut"; "sigma"; "alpha"; "A_cen"; "A_sat"]
  else [].

Section LnExecute.
  (** Component.__init__: from _defaults and the names given. *)
  Variable component : list string -> list string -> res unit.
  (** 219-330, from the arguments. *)
  Variable rest : list (string * karg) -> dblock -> dblock * res unit.
  Variable c : hconfig.
  (** 197-199, 205-207. *)
  Definition ln_value (p : string) (b : dblock) : res R :=
    if LiaModel.has_value b (h_values c) p then block_num b (h_values c) p else Err "Exception".
  (** 201-208. *)
  Fixpoint ln_list (p : string) (bins : list nat) (b : dblock) : res (list R) :=
    match bins with
    | [] => Ok []
    | nb :: t => v <- ln_value (p ++ suffix (h_nbins c) nb) b ;; l <- ln_list p t b ;; Ok (v :: l)
    end.
  (** 194-208. *)
  Fixpoint ln_params (names : list string) (b : dblock) : res (list (string * karg)) :=
    match names with
    | [] => Ok []
    | p :: t =>
        v <- (if String.eqb (h_model c) "Cacciato" then x <- ln_value p b ;; Ok (KNum (Some x))
              else l <- ln_list p (seq 0 (h_nbins c)) b ;; Ok (KArr l)) ;;
        l <- ln_params t b ;; Ok ((p, v) :: l)
    end.
  (** 186-215. *)
  Definition ln_arguments (names : list string) (b : dblock) : res (list (string * karg)) :=
    i <- lh_input c b ;; l <- ln_params names b ;; hb <- table_at b "halobias" "b_hb" ;;
    Ok ([("A_cen", KNum (i_Acen i)); ("A_sat", KNum (i_Asat i))] ++ l ++
        [("mass", KArr (i_mass i)); ("dndlnm", KTab (i_dn i)); ("z_vec", KArr (i_z i)); ("halobias", KTab hb); ("hod_settings", KSettings (h_nobs c))])%list%string.
  (** 217, src/onepower/hod.py 74-91. *)
  Definition ln_class (kw : list (string * karg)) : res unit :=
    component (class_defaults (h_model c)) (filter (fun n => negb (existsb (String.eqb n) class_arguments)) (map fst kw)).
  (** 177-181. *)
  Definition ln_labels : list lput :=
    (lh_labels c ++ [Plain (h_section c) "nbins" (BInt (Z.of_nat (h_nbins c))); Plain (h_section c) "observable_z" (BInt (if h_obsz c then 1 else 0))])%list.
  (** 159-330. *)
  Definition ln_execute (b : dblock) : dblock * res unit :=
    then_ (do_puts false ln_labels b) (fun b' =>
      match legacy_parameters (h_model c) with
      | None => (b', Err "KeyError")
      | Some names =>
          match (kw <- ln_arguments names b' ;; u <- ln_class kw ;; Ok kw) with
          | Err e => (b', Err e)
          | Ok kw => rest kw b'
          end
      end).
End LnExecute.
