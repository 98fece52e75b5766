(** * What a tag object should hold after a history of init calls *)
From Verif Require Import Py S_Base S_Number S_BER M_tagobj.

(** the class and number that a call stores, if it returns *)
Inductive stores (k : bool) : call -> Z -> Z -> Prop :=
| stores_bytes a off c n os : 0 <= off -> 0 <= c <= 3 -> identifier c k n os ->
    octets (sub a (Z.to_nat off) (length os)) = os -> stores k (InitBytes a off) c n
| stores_class c n : stores k (InitClass c n) c n.

(** the calls that returned *)
Fixpoint successes (cs : list call) (rs : list (res unit)) : list call :=
  match cs, rs with
  | c :: cs', Ok _ :: rs' => c :: successes cs' rs'
  | _ :: cs', Err _ :: rs' => successes cs' rs'
  | _, _ => []
  end.

(** C102: class and number are those of the last call that returned *)
Definition C102_full : Prop := forall k cs rs o ss s c n, run k cs (new_obj k) = (rs, o) ->
  successes cs rs = ss ++ [s] -> stores k s c n -> oclass o = Some c /\ onumber o = Some n.
