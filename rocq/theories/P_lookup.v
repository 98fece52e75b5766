(** * C118: which function a call of the TLV classes reaches: property theorems *)
From Verif Require Import LP_lookup Py S_Base L_Py M_lookup S_Lookup.
From Coq Require Import String.
Open Scope string_scope.

(** C118, the part that holds: the documented methods that the package has are reached, on
    objects and on classes, in every subclass that adds other names; *)
Theorem C118_reached_partial : forall d f fuel dict sub, In d jc_tlv_api -> impl d = Some f -> (1 <= fuel)%nat -> adds_only sub dict ->
  documented_call fuel dict sub d = Ok f.
Proof. exact C118_reached_partial_pf. Qed.
Print Assumptions C118_reached_partial.

(** the others raise, whatever the subclass: there is no equals, verifyFormat, delete or
    appendValue (AttributeError), and getTag and PrimitiveBERTLV.toBytes have no static
    form (TypeError for the number of arguments). *)
Theorem C118_missing_refuted : forall d fuel dict sub, In d jc_tlv_api -> impl d = None -> (1 <= fuel)%nat -> adds_only sub dict ->
  documented_call fuel dict sub d = Err (if String.eqb (d_name d) "getTag" || String.eqb (d_name d) "toBytes" then TypeError else AttributeError).
Proof. exact C118_missing_refuted_pf. Qed.
Print Assumptions C118_missing_refuted.

Theorem C118_full_refuted : ~ C118_full.
Proof. exact C118_full_refuted_pf. Qed.
Print Assumptions C118_full_refuted.

(** A static method cannot be called through an object, as Java allows: the object gets the
    other function, which refuses the arguments. *)
Theorem C118_static_on_object_refuted : forall c n k fuel dict sub, In (c, n, k) two_way -> (1 <= fuel)%nat -> adds_only sub dict ->
  (exists f, call (getattr_cls fuel (sub ++ mro_of c) n) k = Ok f)
  /\ call (getattr_obj fuel dict (sub ++ mro_of c) n) k = Err TypeError.
Proof. exact C118_static_on_object_refuted_pf. Qed.
Print Assumptions C118_static_on_object_refuted.

(** The other static methods can be called both ways. *)
Theorem C118_static_both_ways_partial : forall c n k f fuel dict sub, In (c, n, k, f) one_way -> (1 <= fuel)%nat -> adds_only sub dict ->
  call (getattr_cls fuel (sub ++ mro_of c) n) k = Ok f /\ call (getattr_obj fuel dict (sub ++ mro_of c) n) k = Ok f.
Proof. exact C118_static_both_ways_partial_pf. Qed.
Print Assumptions C118_static_both_ways_partial.

(** A subclass that redefines the function behind the instance form of such a method
    changes what its objects do and not the static form. *)
Theorem C118_override_partial : forall c n k b s c0 id lo hi fuel dict sub, In (c, n, k) two_way -> adds_only sub dict -> (1 <= fuel)%nat ->
  mro_find (mro_of c) n = Some (NAS b s) ->
  assoc c0 b = Some (Func id lo hi) -> assoc c0 n = None -> assoc c0 s = None ->
  getattr_obj fuel dict (c0 :: sub ++ mro_of c) n = Ok (Bound id lo hi)
  /\ getattr_cls fuel (c0 :: sub ++ mro_of c) n = getattr_cls fuel (mro_of c) n.
Proof. exact C118_override_partial_pf. Qed.
Print Assumptions C118_override_partial.

(** The objects of the package itself and a subclass that adds a method meet the hypothesis. *)
Example C118_ex : (forall c, adds_only [[("describe", fn "Mine.describe" 1)]] (dict_of c))
  /\ documented_call 1 (dict_of TTag) [[("describe", fn "Mine.describe" 1)]] (mkDoc TTag "size" true 2) = Ok "BERTag._sizeStatic"
  /\ documented_call 1 (dict_of TTag) [[("describe", fn "Mine.describe" 1)]] (mkDoc TTag "size" false 0) = Ok "BERTag._sizeBound"
  /\ documented_call 1 (dict_of TConsTlv) [] (mkDoc TConsTlv "delete" false 2) = Err AttributeError
  /\ documented_call 1 (dict_of TPrimTlv) [] (mkDoc TPrimTlv "toBytes" true 7) = Err TypeError
  /\ getattr_obj 1 [] ([("_sizeBound", fn "Mine.size" 1)] :: mro_of TPrimTag) "size" = Ok (Bound "Mine.size" 1 (Some 1%nat)).
Proof.
  split; [|repeat split].
  intros c n Hn. assert (G : forallb (fun n => match assoc (dict_of c) n with None => negb (String.eqb "describe" n) | _ => false end) package_names = true)
    by (destruct c; vm_compute; reflexivity).
  rewrite forallb_forall in G. specialize (G n Hn). destruct (assoc (dict_of c) n); [discriminate|]. split; [reflexivity|].
  constructor; [|constructor]. cbn [assoc]. destruct (String.eqb "describe" n); [discriminate|reflexivity].
Qed.
