(** * C127-C129: importing the library: property theorems *)
From Verif Require Import LP_imports Py S_Base L_Py M_lookup M_import M_imptab S_Import.
From Coq Require Import String.
Open Scope string_scope.

(** C127, the part that holds: from the checkout, with and without pycrypto, every sequence
    of imports of modules of the library succeeds; afterwards the modules are there and have
    all the names their files bind. *)
Theorem C127_any_order_partial : forall c fuel l, (40 <= fuel)%nat -> of_library l ->
  exists t, program c fuel l = Done t /\ (forall m, In m l -> loaded t m = true)
    /\ (forall m e x, loaded t m = true -> assoc lib m = Some e -> In x (m_body e) -> exists v, bnd t m (binds x) = Some v).
Proof. exact C127_any_order_partial_pf. Qed.
Print Assumptions C127_any_order_partial.

(** The order, and repeated imports, make no difference. *)
Theorem C127_same_partial : forall c f1 f2 l1 l2 t1 t2, (40 <= f1)%nat -> (40 <= f2)%nat -> of_library l1 -> (forall m, In m l1 <-> In m l2) ->
  program c f1 l1 = Done t1 -> program c f2 l2 = Done t2 -> same_modules t1 t2.
Proof. exact C127_same_partial_pf. Qed.
Print Assumptions C127_same_partial.

(** There is one class of each name: a module that has the name APDUException, say, has the
    class of pythoncard/framework/__init__.py, whichever way it came by it. *)
Theorem C127_one_class_partial : forall c fuel l t m n v home, (40 <= fuel)%nat -> of_library l -> program c fuel l = Done t ->
  bnd t m n = Some v -> assoc shared_classes n = Some home -> v = VDef home n.
Proof. exact C127_one_class_partial_pf. Qed.
Print Assumptions C127_one_class_partial.

(** Installed, where pyDes is a plain module, the package pythoncard.security can never be
    imported: not with any number of nested imports, and not after any imports the program has
    tried before. *)
Theorem C127_installed_refuted : forall c fuel fuel' l t,
  imp lib_installed (ext_of c) is_import_error fuel "pythoncard.security" (try_all lib_installed (ext_of c) fuel' l []) <> Done t.
Proof. exact C127_installed_refuted_pf. Qed.
Print Assumptions C127_installed_refuted.

Theorem C127_full_refuted : ~ C127_full.
Proof. exact C127_full_refuted_pf. Qed.
Print Assumptions C127_full_refuted.

(** Exactly which global names in function bodies have no value in a program that has imported
    the module, and which exception evaluating them raises. *)
Theorem C128_exact_partial : forall c fuel l t m f ln us u e, (40 <= fuel)%nat -> of_library l -> program c fuel l = Done t ->
  In (m, f, ln, us) fn_refs -> In u us -> loaded t m = true ->
  (resolve t m u = inr e <-> (e = NameErr /\ In (m, f, u) undefined_names) \/ (e = AttrErr /\ c = false /\ In (m, f, u) none_without_pycrypto)).
Proof. exact C128_exact_partial_pf. Qed.
Print Assumptions C128_exact_partial.

(** Every name of the first list is really without a value in every program that has imported
    its module; every name of the second in every program without pycrypto. *)
Theorem C128_refuted : forall m f u, In (m, f, u) undefined_names ->
  (exists ln us, In (m, f, ln, us) fn_refs /\ In u us) /\
  forall c fuel l t, (40 <= fuel)%nat -> of_library l -> In m l -> program c fuel l = Done t -> resolve t m u = inr NameErr.
Proof. exact C128_refuted_pf. Qed.
Print Assumptions C128_refuted.

Theorem C128_full_refuted : ~ C128_full.
Proof. exact C128_full_refuted_pf. Qed.
Print Assumptions C128_full_refuted.

(** Exactly which classes of the Java Card API a program can import with [from package import
    class], whatever it has imported before; for the others it gets ImportError. *)
Theorem C129_exact_partial : forall c fuel l p ns n, (40 <= fuel)%nat -> of_library l -> In (p, ns) jc_classes -> In n ns ->
  match program_from c fuel l p n with
  | Done _ => ~ In (p, n) jc_missing
  | Fail e _ => e = ImportErr /\ In (p, n) jc_missing
  end.
Proof. exact C129_exact_partial_pf. Qed.
Print Assumptions C129_exact_partial.

Theorem C129_full_refuted : ~ C129_full.
Proof. exact C129_full_refuted_pf. Qed.
Print Assumptions C129_full_refuted.

(** Concrete cases.  Two orders of two modules, once with a repeated import. *)
Example C127_ex1 :
  match program false 40 ["pythoncardx.crypto.cipher"; "pythoncard.framework.aid"], program false 40 ["pythoncard.framework.aid"; "pythoncardx.crypto.cipher"; "pythoncard.framework.aid"] with
  | Done s, Done t => negb (Nat.eqb (List.length s) 0) && Nat.eqb (List.length s) (List.length t) && loaded s "pythoncard.security.secretkey"
                      && is_val (bnd s "pythoncardx.crypto.cipher" "CryptoException") (VDef "pythoncard.security" "CryptoException")
                      && is_val (bnd t "pythoncardx.crypto.cipher" "pyDes") (VMod "pyDes.pyDes")
  | _, _ => false
  end = true.
Proof. vm_compute. reflexivity. Qed.

(** Installed, the second attempt fails too, though modules of the package have stayed loaded. *)
Example C127_ex2 :
  let s := try_all lib_installed (ext_of true) 40 ["pythoncard.security"] [] in
  (loaded s "pythoncard.security.key", loaded s "pythoncard.security", loaded s "pyDes",
   match imp lib_installed (ext_of true) is_import_error 40 "pythoncard.security" s with Fail ImportErr _ => true | _ => false end) = (true, false, true, true).
Proof. vm_compute. reflexivity. Qed.

Example C128_ex :
  match program true 40 ["pythoncard.framework"] with
  | Done t => match resolve t "pythoncard.framework.aid" ("aidOfset", []), resolve t "pythoncard.framework.aid" ("ArrayIndexOutOfBoundsException", []),
                    resolve t "pythoncard.framework.util" ("ArrayIndexoutOfBoundsException", []) with
              | inr NameErr, inl _, inr NameErr => true | _, _, _ => false end
  | _ => false
  end = true.
Proof. vm_compute. reflexivity. Qed.

Example C129_ex :
  match program_from true 40 ["pythoncard.security"] "pythoncard.framework" "JCSystem", program_from true 40 [] "pythoncard.security" "AESKey" with
  | Done _, Fail ImportErr _ => true | _, _ => false end = true.
Proof. vm_compute. reflexivity. Qed.
