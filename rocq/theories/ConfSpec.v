(** Vocabulary for the statements about options. *)
From Verif Require Import Base PkModel Validate.
Open Scope string_scope.

(** The documented combinations. *)
Definition documented (mode ingr : pyval) : Prop :=
  (mode = PStr "bnl" \/ mode = PStr "hmcode" \/ mode = PStr "fortuna" \/ mode = PNone) /\
  (ingr = PStr "mead2020_feedback" \/ ingr = PStr "mead2020" \/ ingr = PStr "fit" \/ ingr = PNone) /\
  (mode = PStr "hmcode" -> ingr = PStr "mead2020_feedback" \/ ingr = PStr "mead2020").

(** Configurations reached from an accepted construction by accepted updates. *)
Inductive configured : conf -> Prop :=
| built m i c : new_conf m i = Ok c -> configured c
| updated c l c' : configured c -> update_conf c l = (c', Ok tt) -> configured c'.

(** Array inputs of the right size: supplied spectra on the (z, k) grid, at least two wave
    numbers and two masses, complete Poisson parameters, and beta_nl given or emulated. *)
Definition on_grid (S : spectra) (a : option arr2) : Prop :=
  match a with None => True | Some a => a_rows a = s_nz S /\ a_cols a = s_nk S end.
Definition good_inputs (S : spectra) : Prop :=
  on_grid S (s_plin S) /\ on_grid S (s_pnl S) /\ (2 <= s_nk S)%nat /\ (2 <= s_nm S)%nat /\
  (exists p, poisson_func (s_poisson S) (s_mass S) = Ok p) /\
  (s_beta_nl S <> None \/ exists B, s_emulator S = Ok B).

(** The six keys Spectra writes into align_params. *)
Definition own_keys : list string := ["z_vec"; "mass_in"; "c_in"; "r_s_in"; "rvir_in"; "method"].
