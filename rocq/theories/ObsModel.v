(** Model of the observable-function accessors of Spectra, src/onepower/pk.py:1702-1793.
    Definitions only.  The HOD side (hod.py:856-938) is in HodModel.v. *)
From Verif Require Import Base HodModel.
Open Scope R_scope.

(** pk.py:1713-1721: the HOD arguments shared with the galaxy HOD, with the observable
    settings in place of the galaxy ones. *)
Definition with_settings (c : hod_ctx) (s : hod_settings) : hod_ctx :=
  {| c_set := s; c_nm := c_nm c; c_mass := c_mass c; c_nzv := c_nzv c; c_zvec := c_zvec c;
     c_dndlnm := c_dndlnm c; c_bias := c_bias c; c_h := c_h c |}.

Section SpectraObs.
  (** [c]: mass function, bias and grids of the Spectra object; [md]: hod_model with its
      parameters; [compute_observable] and [obs_settings]: the Spectra parameters. *)
  Variables (c : hod_ctx) (md : hod_model) (compute_observable : bool) (obs_settings : hod_settings).

  (** pk.py:1702-1723  obs: the second HOD object, or None. *)
  Definition sp_obs : option (hod_ctx * cacciato_par) :=
    match md with
    | Cacciato p => if compute_observable then Some (with_settings c obs_settings, p) else None
    | _ => None
    end.

  (** pk.py:1725-1737, 1739-1751, 1753-1765  obs_func, obs_func_cen, obs_func_sat
      (np.squeeze drops the mass axis of length one of obs). *)
  Definition sp_scaled (sel : hod_ctx -> cacciato_par -> A3) : option A3 :=
    match sp_obs with
    | None => None
    | Some (c', p) => Some (fun b j o => ln ten * hod_obs (c_set c') b j o * sel c' p b j o)
    end.
  Definition sp_obs_func : option A3 := sp_scaled obs_func.
  Definition sp_obs_func_cen : option A3 := sp_scaled obs_func_cen.
  Definition sp_obs_func_sat : option A3 := sp_scaled obs_func_sat.

  (** pk.py:1767-1779, 1781-1793  obs_func_obs, obs_func_z. *)
  Definition sp_obs_func_obs : option A3 :=
    match sp_obs with None => None | Some (c', _) => Some (hod_obs (c_set c')) end.
  Definition sp_obs_func_z : option A2 :=
    match sp_obs with None => None | Some (c', _) => Some (hod_z (c_set c')) end.
End SpectraObs.
