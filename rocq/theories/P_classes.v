(** * Proofs of C130 and C131: methods and attributes: property theorems *)
From Verif Require Import LP_classes Py S_Base M_lookup M_import M_imptab S_Import M_classes S_Classes LP_imports.
From Coq Require Import String Lia.
Open Scope string_scope.

(** Methods of objects: exactly the calls of [objects_broken] fail, with the exception given
    there; all others reach a function. *)
Theorem C130_objects_partial : forall c fuel l t p cl os ms m k n a e, (40 <= fuel)%nat -> of_library l -> program c fuel l = Done t ->
  In (p, cl, os, ms) jc_objects -> In (m, k) os -> In (n, a) ms -> loaded t m = true ->
  (on_object t m k n a = Err e <-> In (m, k, n, a, e) objects_broken).
Proof. exact C130_objects_partial_pf. Qed.
Print Assumptions C130_objects_partial.

(** Static methods likewise. *)
Theorem C130_statics_partial : forall c fuel l t p cl ms n a e, (40 <= fuel)%nat -> of_library l -> program c fuel l = Done t ->
  In (p, cl, ms) jc_statics -> In (n, a) ms -> loaded t p = true ->
  (on_class t p cl n a = Err e <-> In (p, cl, n, a, e) statics_broken).
Proof. exact C130_statics_partial_pf. Qed.
Print Assumptions C130_statics_partial.

(** Every constructor of the API accepts its arguments. *)
Theorem C130_ctors_partial : forall c fuel l t p cl ks a, (40 <= fuel)%nat -> of_library l -> program c fuel l = Done t ->
  In (p, cl, ks) jc_ctors -> In a ks -> loaded t p = true -> exists f, construct t p cl a = Ok f.
Proof. exact C130_ctors_partial_pf. Qed.
Print Assumptions C130_ctors_partial.

(** Each entry of the two lists is a method of the API, and fails in every program. *)
Theorem C130_refuted : forall m k n a e,
  (In (m, k, n, a, e) objects_broken -> (exists p cl os ms, In (p, cl, os, ms) jc_objects /\ In (m, k) os /\ In (n, a) ms) /\
     forall c fuel l t, (40 <= fuel)%nat -> of_library l -> In m l -> program c fuel l = Done t -> on_object t m k n a = Err e)
  /\ (In (m, k, n, a, e) statics_broken -> (exists ms, In (m, k, ms) jc_statics /\ In (n, a) ms) /\
     forall c fuel l t, (40 <= fuel)%nat -> of_library l -> In m l -> program c fuel l = Done t -> on_class t m k n a = Err e).
Proof. exact C130_refuted_pf. Qed.
Print Assumptions C130_refuted.

Theorem C130_full_refuted : ~ C130_full.
Proof. exact C130_full_refuted_pf. Qed.
Print Assumptions C130_full_refuted.

(** No function names an attribute that its class does not have. *)
Theorem C131_class_attributes_partial : forall c fuel l t m f ln us u v, (40 <= fuel)%nat -> of_library l -> program c fuel l = Done t ->
  In (m, f, ln, us) fn_refs -> In u us -> loaded t m = true -> resolve t m u = inl v -> exists w, resolve_deep t m u = inl w.
Proof. exact C131_class_attributes_partial_pf. Qed.
Print Assumptions C131_class_attributes_partial.

(** Of the attributes read from self exactly one is never set: _selectingApplet in
    Applet.selectingApplet (applet.py:28). *)
Theorem C131_self_partial : forall c fuel l t m k f ln ns a, (40 <= fuel)%nat -> of_library l -> program c fuel l = Done t ->
  In (m, k, f, ln, ns) self_refs -> In a ns -> loaded t m = true ->
  (on_self t depth m k a = false <-> (m, k, f, a) = ("pythoncard.framework.applet", "Applet", "selectingApplet", "_selectingApplet")).
Proof. exact C131_self_partial_pf. Qed.
Print Assumptions C131_self_partial.

Theorem C131_full_refuted : ~ C131_full.
Proof. exact C131_full_refuted_pf. Qed.
Print Assumptions C131_full_refuted.

(** A concrete case: after importing pythoncard.security. *)
Example C130_ex :
  match program false 40 ["pythoncard.security"] with
  | Done t => (on_object t "pythoncard.security.secretkey" "pyDesDESKey" "getKey" 2, on_object t "pythoncard.security.secretkey" "pyDesDESKey" "isInitialized" 0,
               on_object t "pythoncard.security.privatekey" "PyCryptoRSAPrivateCrtKey" "getP" 2, on_class t "pythoncard.framework" "Util" "arrayCopy" 5,
               on_class t "pythoncard.framework" "JCSystem" "getVersion" 0, construct t "pythoncard.framework" "OwnerPIN" 2)
  | Fail _ _ => (Err OutOfFuel, Err OutOfFuel, Err OutOfFuel, Err OutOfFuel, Err OutOfFuel, Err OutOfFuel)
  end = (Ok "pyDesDESKey.getKey", Ok "Key.isInitialized", Err TypeError, Ok "arrayCopy", Err AttributeError, Ok "OwnerPIN.__init__").
Proof. vm_compute. reflexivity. Qed.

Example C131_ex :
  match program true 40 ["pythoncard.security.keypair"] with
  | Done t => match resolve_deep t "pythoncard.security.keypair" ("KeyBuilder", ["TYPE_RSA_PUBLIC"]), resolve_deep t "pythoncard.security.keypair" ("KeyBuilder", ["TYPE_RSA"]) with
              | inl _, inr AttrErr => on_self t depth "pythoncard.security.secretkey" "pyDesDESKey" "_setInitialized" && on_self t depth "pyDes.pyDes" "des" "__permutate" && negb (on_self t depth "pyDes.pyDes" "des" "__key") && negb (on_self t depth "pythoncard.security.secretkey" "pyDesDESKey" "modulus")
              | _, _ => false end
  | Fail _ _ => false
  end = true.
Proof. vm_compute. reflexivity. Qed.
