(** * Specification for C73 and C74 over all integer offsets *)
From Verif Require Import Py S_System S_ArrayAll.

(** what a message digest has been fed since it was last as new: a call whose input
    range names a missing cell changes nothing, another doFinal forgets everything *)
Definition fed_step (acc : list Z) (c : dcall) : list Z :=
  match c with
  | DReset => []
  | DUpdate b o l => if all_cells b o l then acc ++ named b o l else acc
  | DFinal b o l _ _ => if all_cells b o l then [] else acc
  end.
Definition fed_any (h : list dcall) : list Z := fold_left fed_step h [].
