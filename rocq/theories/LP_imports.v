(** * C127-C129: importing the library: proofs *)
From Verif Require Import Py S_Base L_Py M_lookup M_import M_imptab S_Import.
From Coq Require Import String.
Open Scope string_scope.

(** ** Maps *)
Lemma eqb_true a b : String.eqb a b = true -> a = b.
Proof. apply String.eqb_eq. Qed.
Lemma eqb_sym' a b : String.eqb a b = String.eqb b a.
Proof. apply String.eqb_sym. Qed.
Lemma assoc_In {A} (l : list (string * A)) n v : assoc l n = Some v -> In (n, v) l.
Proof. induction l as [|[m w] l IH]; cbn [assoc]; [discriminate|]. destruct (String.eqb m n) eqn:E.
  - intros [= ->]. left. apply eqb_true in E. now subst. - intros H. right. now apply IH. Qed.
Lemma assoc_setattr m n v s x : assoc (setattr m n v s) x =
  match assoc s x with Some ns => Some (if String.eqb x m then (n, v) :: ns else ns) | None => None end.
Proof.
  induction s as [|[k ns] s IH]; [reflexivity|]. cbn [setattr map]. cbn [fst snd].
  destruct (String.eqb k m) eqn:E; cbn [assoc]; destruct (String.eqb k x) eqn:F.
  - apply eqb_true in F. subst. now rewrite E.
  - exact IH.
  - apply eqb_true in F. subst. now rewrite E.
  - exact IH.
Qed.
Lemma loaded_setattr m n v s x : loaded (setattr m n v s) x = loaded s x.
Proof. unfold loaded. rewrite assoc_setattr. now destruct (assoc s x). Qed.
Lemma bnd_setattr m n v s x y : bnd (setattr m n v s) x y =
  if String.eqb x m && String.eqb y n && loaded s m then Some v else bnd s x y.
Proof.
  unfold bnd, loaded. rewrite assoc_setattr. destruct (String.eqb x m) eqn:E.
  - apply eqb_true in E. subst. destruct (assoc s m) as [ns|]; cbn [andb]; [|now rewrite andb_false_r].
    cbn [assoc]. rewrite (eqb_sym' y n), andb_true_r. reflexivity.
  - cbn [andb]. now destruct (assoc s x).
Qed.
Lemma loaded_new m s x : loaded ((m, []) :: s) x = String.eqb m x || loaded s x.
Proof. unfold loaded. cbn [assoc]. now destruct (String.eqb m x). Qed.
Lemma bnd_new m s x y : bnd ((m, []) :: s) x y = if String.eqb m x then None else bnd s x y.
Proof. unfold bnd. cbn [assoc]. now destruct (String.eqb m x). Qed.
Lemma bnd_loaded s m n v : bnd s m n = Some v -> loaded s m = true.
Proof. unfold bnd, loaded. now destruct (assoc s m). Qed.

(** ** What the files say, whatever the order *)
Definition own (m : string) : list string := match assoc lib m with Some e => map binds (m_body e) | None => [] end.
Definition mem (n : string) (l : list string) : bool := existsb (String.eqb n) l.
Lemma mem_In n l : mem n l = true <-> In n l.
Proof. unfold mem. rewrite existsb_exists. split.
  - intros (x & H & E). apply eqb_true in E. now subst.
  - intros H. exists n. split; [exact H|apply String.eqb_refl]. Qed.
Definition dep1 (x : stmt) : list string :=
  match x with
  | SImport p _ => if known lib p then [p] else []
  | SFrom p n _ | STry p n _ => if known lib p then p :: (if is_pkg lib p && known lib (sub_name p n) then [sub_name p n] else []) else []
  | _ => []
  end.
Definition deps (m : string) : list string :=
  match assoc lib m with
  | Some e => match m_parent e with Some (p, _) => [p] | None => [] end ++ flat_map dep1 (m_body e)
  | None => []
  end.
Definition parent (m : string) : option (string * string) := match assoc lib m with Some e => m_parent e | None => None end.
Definition strict (e : iexn) : bool := false.
Definition simp (c : bool) (f : nat) := imp lib (ext_of c) strict f.
(** the interpreter that has imported everything *)
Definition full (c : bool) : istate := match program c 40 lib_names with Done s => s | Fail _ _ => [] end.
Definition val_eqb (a b : val) : bool :=
  match a, b with
  | VMod x, VMod y => String.eqb x y
  | VDef x n, VDef y k => String.eqb x y && String.eqb n k
  | VExt x n, VExt y k => String.eqb x y && String.eqb n k
  | VNone, VNone => true
  | VSome, VSome => true
  | _, _ => false
  end.
Lemma val_eqb_eq a b : val_eqb a b = true -> a = b.
Proof. destruct a, b; cbn; try discriminate; rewrite ?andb_true_iff; rewrite ?String.eqb_eq; try congruence; intros []; congruence. Qed.
Definition is_val (o : option val) (v : val) : bool := match o with Some w => val_eqb w v | None => false end.
Lemma is_val_eq o v : is_val o v = true -> o = Some v.
Proof. destruct o; cbn; [|discriminate]. intros H. now rewrite (val_eqb_eq _ _ H). Qed.
Definition from_okb (F : istate) (m p n a : string) (x : val) : bool :=
  if known lib p then
    match bnd F p n with
    | Some v => is_val (bnd F m a) v
        && (if is_pkg lib p && known lib (sub_name p n) then val_eqb v (VMod (sub_name p n)) else true)
    | None => false
    end
  else is_val (bnd F m a) x.
Definition stmt_okb (c : bool) (F : istate) (m : string) (x : stmt) : bool :=
  match x with
  | SBind n _ => is_val (bnd F m n) (VDef m n)
  | SSame n u => match resolve F m u with inl v => is_val (bnd F m n) v | inr _ => false end
  | SImport p top => is_val (bnd F m top) (if known lib p then VMod top else VExt top "")
  | SFrom p n a => from_okb F m p n a (VExt p n)
  | STry p n a => from_okb F m p n a (if ext_of c p then VExt p n else VNone)
  end.
Definition mod_okb (c : bool) (F : istate) (me : string * modl) : bool :=
  forallb (stmt_okb c F (fst me)) (m_body (snd me))
  && match m_parent (snd me) with Some (p, n) => is_val (bnd F p n) (VMod (fst me)) && known lib p | None => true end.
Lemma tables_ok c : forallb (mod_okb c (full c)) lib = true.
Proof. destruct c; vm_compute; reflexivity. Qed.
Lemma stmt_ok_gen c F m e x : forallb (mod_okb c F) lib = true -> assoc lib m = Some e -> In x (m_body e) -> stmt_okb c F m x = true.
Proof.
  intros T H I. rewrite forallb_forall in T.
  specialize (T _ (assoc_In _ _ _ H)). unfold mod_okb in T. cbn [fst snd] in T.
  apply andb_prop in T. destruct T as [T _]. rewrite forallb_forall in T. exact (T _ I).
Qed.
Lemma stmt_ok c m e x : assoc lib m = Some e -> In x (m_body e) -> stmt_okb c (full c) m x = true.
Proof. exact (stmt_ok_gen c (full c) m e x (tables_ok c)). Qed.
Lemma parent_ok_gen c F m e p n : forallb (mod_okb c F) lib = true -> assoc lib m = Some e -> m_parent e = Some (p, n) ->
  bnd F p n = Some (VMod m) /\ known lib p = true.
Proof.
  intros T H I. rewrite forallb_forall in T.
  specialize (T _ (assoc_In _ _ _ H)). unfold mod_okb in T. cbn [fst snd] in T.
  rewrite I in T. apply andb_prop in T. destruct T as [_ T]. apply andb_prop in T. destruct T as [T K].
  split; [exact (is_val_eq _ _ T)|exact K].
Qed.
Lemma parent_ok c m e p n : assoc lib m = Some e -> m_parent e = Some (p, n) -> bnd (full c) p n = Some (VMod m) /\ known lib p = true.
Proof. exact (parent_ok_gen c (full c) m e p n (tables_ok c)). Qed.
(** States that agree with the full one *)
Definition cons (c : bool) (s : istate) : Prop := forall m n v, bnd s m n = Some v -> bnd (full c) m n = Some v.
Definition le (s t : istate) : Prop :=
  (forall m, loaded s m = true -> loaded t m = true) /\ (forall m n v, bnd s m n = Some v -> bnd t m n = Some v).
Lemma le_refl s : le s s. Proof. split; auto. Qed.
Lemma le_trans s t u : le s t -> le t u -> le s u.
Proof. intros [A B] [C D]. split; eauto. Qed.
Lemma cons_set c m n v s : cons c s -> bnd (full c) m n = Some v -> cons c (setattr m n v s).
Proof. intros C H x y w. rewrite bnd_setattr. destruct (String.eqb x m && String.eqb y n && loaded s m) eqn:E; [|apply C].
  apply andb_prop in E. destruct E as [E _]. apply andb_prop in E. destruct E as [E1 E2].
  apply eqb_true in E1, E2. subst. congruence. Qed.
Lemma le_set c m n v s : cons c s -> bnd (full c) m n = Some v -> le s (setattr m n v s).
Proof. intros C H. split; [intros x; now rewrite loaded_setattr|].
  intros x y w Hw. rewrite bnd_setattr. destruct (String.eqb x m && String.eqb y n && loaded s m) eqn:E; [|exact Hw].
  apply andb_prop in E. destruct E as [E _]. apply andb_prop in E. destruct E as [E1 E2].
  apply eqb_true in E1, E2. subst. apply C in Hw. congruence. Qed.
Lemma attrs_cons c s l : cons c s -> forall v w, attrs s v l = inl w -> attrs (full c) v l = inl w.
Proof. intros C. induction l as [|a l IH]; intros v w; cbn [attrs]; [auto|].
  destruct v; try (apply IH); try discriminate.
  destruct (bnd s m a) as [v'|] eqn:E; [|discriminate]. rewrite (C _ _ _ E). apply IH. Qed.
Lemma attrs_le s t l : le s t -> forall v w, attrs s v l = inl w -> attrs t v l = inl w.
Proof. intros [_ C]. induction l as [|a l IH]; intros v w; cbn [attrs]; [auto|].
  destruct v; try (apply IH); try discriminate.
  destruct (bnd s m a) as [v'|] eqn:E; [|discriminate]. rewrite (C _ _ _ E). apply IH. Qed.
(** A built-in name is never a global of the library: *)
Lemma builtin_free c : forallb (fun me => forallb (fun x => negb (builtin (binds x))) (m_body (snd me))) lib = true
  /\ forallb (fun e => forallb (fun nv => negb (builtin (fst nv))) (snd e)) (full c) = true.
Proof. destruct c; vm_compute; split; reflexivity. Qed.
Lemma builtin_gen (F : istate) m n v : forallb (fun e => forallb (fun nv => negb (builtin (fst nv))) (snd e)) F = true ->
  bnd F m n = Some v -> builtin n = false.
Proof.
  intros B H. rewrite forallb_forall in B. unfold bnd in H.
  destruct (assoc F m) as [ns|] eqn:E; [|discriminate].
  specialize (B _ (assoc_In _ _ _ E)). cbn [snd] in B. rewrite forallb_forall in B.
  specialize (B _ (assoc_In _ _ _ H)). cbn [fst] in B. now apply negb_true_iff in B.
Qed.
Lemma full_builtin c m n v : bnd (full c) m n = Some v -> builtin n = false.
Proof. exact (builtin_gen (full c) m n v (proj2 (builtin_free c))). Qed.
Opaque full.
Lemma resolve_le c s t m u v : le s t -> cons c t -> resolve s m u = inl v -> resolve t m u = inl v.
Proof. intros L C. unfold resolve. destruct (bnd s m (fst u)) as [w|] eqn:E.
  - rewrite (proj2 L _ _ _ E). apply attrs_le, L.
  - destruct (builtin (fst u)) eqn:B; [|discriminate]. intros H.
    destruct (bnd t m (fst u)) as [w|] eqn:F; [|exact (attrs_le _ _ _ L _ _ H)].
    apply C in F. apply full_builtin in F. congruence. Qed.
Lemma le_full c s : cons c s -> (forall m, loaded s m = true -> loaded (full c) m = true) -> le s (full c).
Proof. intros C L. split; [exact L|exact C]. Qed.
Lemma resolve_full c s m u v : cons c s -> resolve s m u = inl v -> resolve (full c) m u = inl v.
Proof. intros C. unfold resolve. destruct (bnd s m (fst u)) as [w|] eqn:E.
  - rewrite (C _ _ _ E). now apply attrs_cons.
  - destruct (builtin (fst u)) eqn:B; [|discriminate]. intros H.
    destruct (bnd (full c) m (fst u)) as [w|] eqn:F; [|exact (attrs_cons _ _ _ C _ _ H)].
    apply full_builtin in F. congruence. Qed.
Lemma resolve_all_le c s t m us : le s t -> cons c t -> resolve_all s m us = None -> resolve_all t m us = None.
Proof. intros L C. induction us as [|u us IH]; cbn [resolve_all]; [auto|].
  destruct (resolve s m u) as [v|e] eqn:E; [|discriminate]. rewrite (resolve_le _ _ _ _ _ _ L C E). exact IH. Qed.

(** ** Successful imports only add, and what they add is in the full state *)
Definition good (c : bool) (I : string -> istate -> oc) : Prop :=
  forall q s t, cons c s -> I q s = Done t -> cons c t /\ le s t /\ (loaded t q = true).
Lemma from_good c I m p n a s t w : good c I -> cons c s ->
  from_okb (full c) m p n a w = true -> (ext_of c p = true -> w = VExt p n) ->
  from_import lib (ext_of c) I m p n a s = Done t -> cons c t /\ le s t.
Proof.
  intros G C K W. unfold from_okb in K. unfold from_import. destruct (known lib p) eqn:Kp.
  - destruct (bnd (full c) p n) as [v|] eqn:B; [|discriminate]. apply andb_prop in K. destruct K as [K1 K2].
    apply is_val_eq in K1.
    destruct (I p s) as [s1|] eqn:E1; [|discriminate]. destruct (G _ _ _ C E1) as (C1 & L1 & _).
    destruct (bnd s1 p n) as [v1|] eqn:B1.
    + intros [= <-]. pose proof (C1 _ _ _ B1) as Q. assert (v1 = v) by congruence. subst v1.
      split; [now apply cons_set|]. eapply le_trans; [exact L1|]. now apply le_set with c.
    + destruct (is_pkg lib p && known lib (sub_name p n)) eqn:Kq; [|discriminate].
      apply val_eqb_eq in K2.
      destruct (I (sub_name p n) s1) as [s2|] eqn:E2; [|discriminate]. destruct (G _ _ _ C1 E2) as (C2 & L2 & _).
      assert (Z : cons c (setattr m a v s2) /\ le s (setattr m a v s2)).
      { split; [now apply cons_set|]. eapply le_trans; [exact L1|]. eapply le_trans; [exact L2|]. now apply le_set with c. }
      destruct (bnd s2 p n) as [v2|] eqn:B2.
      * intros [= <-]. pose proof (C2 _ _ _ B2) as Q. assert (v2 = v) by congruence. now subst v2.
      * destruct (loaded s2 (sub_name p n)); [|discriminate]. intros [= <-]. now rewrite <- K2.
  - apply is_val_eq in K. destruct (ext_of c p) eqn:X; [|discriminate]. rewrite (W eq_refl) in K.
    intros [= <-]. split; [now apply cons_set|now apply le_set with c].
Qed.
Lemma exec1_good c I m x s t : good c I -> cons c s -> stmt_okb c (full c) m x = true ->
  exec1 lib (ext_of c) strict I m x s = Done t -> cons c t /\ le s t.
Proof.
  intros G C K. destruct x as [n us|n u|p top|p n a|p n a]; cbn [exec1]; cbn [stmt_okb] in K.
  - destruct (resolve_all s m us); [discriminate|]. intros [= <-]. apply is_val_eq in K.
    split; [now apply cons_set|now apply le_set with c].
  - destruct (resolve s m u) as [v|] eqn:R; [|discriminate]. intros [= <-].
    rewrite (resolve_full _ _ _ _ _ C R) in K. apply is_val_eq in K.
    split; [now apply cons_set|now apply le_set with c].
  - destruct (known lib p).
    + destruct (I p s) as [s1|] eqn:E; [|discriminate]. intros [= <-]. destruct (G _ _ _ C E) as (C1 & L1 & _).
      apply is_val_eq in K. split; [now apply cons_set|]. eapply le_trans; [exact L1|]. now apply le_set with c.
    + destruct (ext_of c p); [|discriminate]. intros [= <-]. apply is_val_eq in K.
      split; [now apply cons_set|now apply le_set with c].
  - intros H. eapply from_good; [exact G|exact C|exact K| |exact H]. reflexivity.
  - destruct (known lib p) eqn:Kp.
    + destruct (from_import lib (ext_of c) I m p n a s) as [s1|e s1] eqn:E; [|discriminate]. intros [= <-].
      eapply from_good; [exact G|exact C|exact K| |exact E]. intros X. now rewrite X.
    + intros [= <-]. unfold from_okb in K. rewrite Kp in K. apply is_val_eq in K.
      split; [now apply cons_set|now apply le_set with c].
Qed.
Lemma exec_good c I m b : good c I -> (forall x, In x b -> stmt_okb c (full c) m x = true) ->
  forall s t, cons c s -> exec lib (ext_of c) strict I m b s = Done t -> cons c t /\ le s t.
Proof.
  intros G. induction b as [|x b IH]; intros K s t C; cbn [exec].
  - intros [= <-]. split; [exact C|apply le_refl].
  - destruct (exec1 lib (ext_of c) strict I m x s) as [s1|] eqn:E; [|discriminate]. intros H.
    destruct (exec1_good _ _ _ _ _ _ G C (K _ (or_introl eq_refl)) E) as [C1 L1].
    destruct (IH (fun y Hy => K y (or_intror Hy)) _ _ C1 H) as [C2 L2]. split; [exact C2|exact (le_trans _ _ _ L1 L2)].
Qed.
Lemma le_new m s : loaded s m = false -> le s ((m, []) :: s).
Proof. intros H. split.
  - intros x Hx. rewrite loaded_new, Hx. apply orb_true_r.
  - intros x y v Hv. rewrite bnd_new. destruct (String.eqb m x) eqn:E; [|exact Hv].
    apply eqb_true in E. subst. apply bnd_loaded in Hv. congruence. Qed.
Lemma cons_new c m s : cons c s -> cons c ((m, []) :: s).
Proof. intros C x y v. rewrite bnd_new. destruct (String.eqb m x); [discriminate|apply C]. Qed.
Lemma simp_good c f : good c (simp c f).
Proof.
  induction f as [|f IH]; intros q s t C; unfold simp; cbn [imp]; [discriminate|].
  destruct (loaded s q) eqn:L; [intros [= <-]; split; [exact C|split; [apply le_refl|exact L]]|].
  destruct (assoc lib q) as [e|] eqn:A; [|discriminate].
  assert (P : forall s1, (match m_parent e with None => Done s | Some (p, _) => imp lib (ext_of c) strict f p s end) = Done s1 -> cons c s1 /\ le s s1).
  { intros s1. destruct (m_parent e) as [[p n]|].
    - intros H. destruct (IH _ _ _ C H) as (X & Y & _). now split.
    - intros [= <-]. split; [exact C|apply le_refl]. }
  destruct (match m_parent e with None => Done s | Some (p, _) => imp lib (ext_of c) strict f p s end) as [s1|]; [|discriminate].
  destruct (P _ eq_refl) as [C1 L1].
  destruct (loaded s1 q) eqn:Lq; [intros [= <-]; split; [exact C1|split; [exact L1|exact Lq]]|].
  destruct (exec lib (ext_of c) strict (imp lib (ext_of c) strict f) q (m_body e) ((q, []) :: s1)) as [s2|] eqn:X; [|discriminate].
  destruct (exec_good c _ q (m_body e) IH (fun x => stmt_ok c q e x A) _ _ (cons_new _ _ _ C1) X) as [C2 L2].
  assert (Q : loaded s2 q = true) by (apply (proj1 L2); rewrite loaded_new, String.eqb_refl; reflexivity).
  pose proof (le_trans _ _ _ L1 (le_trans _ _ _ (le_new _ _ Lq) L2)) as L3.
  destruct (m_parent e) as [[p n]|] eqn:Pe; intros [= <-].
  - destruct (parent_ok c _ _ _ _ A Pe) as [B _]. split; [now apply cons_set|]. split.
    + eapply le_trans; [exact L3|]. now apply le_set with c.
    + now rewrite loaded_setattr.
  - split; [exact C2|]. now split.
Qed.

(** ** Sets of completely imported modules *)
Record closed (c : bool) (X : istate) : Prop := mkClosed {
  cl_tab : forall m, loaded X m = true -> known lib m = true;
  cl_dep : forall m d, loaded X m = true -> In d (deps m) -> loaded X d = true;
  cl_own : forall m n, loaded X m = true -> In n (own m) -> exists v, bnd X m n = Some v;
  cl_child : forall q p n, loaded X q = true -> parent q = Some (p, n) -> exists v, bnd X p n = Some v;
  cl_mod : forall m n q, bnd X m n = Some (VMod q) -> loaded X q = true;
  cl_cons : cons c X }.
(** the part of t beyond s is in X *)
Definition within (X s t : istate) : Prop :=
  (forall m, loaded t m = true -> loaded s m = true \/ loaded X m = true)
  /\ (forall m n v, bnd t m n = Some v -> bnd s m n = Some v \/ bnd X m n = Some v).
Lemma within_refl X s : within X s s. Proof. split; auto. Qed.
Lemma within_trans X s t u : within X s t -> within X t u -> within X s u.
Proof. intros [A B] [C D]. split; [intros m H; destruct (C _ H); auto|intros m n v H; destruct (D _ _ _ H); auto]. Qed.
Lemma within_set X m n v s : bnd X m n = Some v -> within X s (setattr m n v s).
Proof. intros B. split; [intros x; rewrite loaded_setattr; auto|]. intros x y w. rewrite bnd_setattr.
  destruct (String.eqb x m && String.eqb y n && loaded s m) eqn:E; [|auto].
  apply andb_prop in E. destruct E as [E _]. apply andb_prop in E. destruct E as [E1 E2].
  apply eqb_true in E1, E2. subst. intros [= <-]. now right. Qed.
Lemma within_new X m s : loaded X m = true -> within X s ((m, []) :: s).
Proof. intros L. split.
  - intros x. rewrite loaded_new. destruct (String.eqb m x) eqn:E; [apply eqb_true in E; subst; auto|auto].
  - intros x y v. rewrite bnd_new. destruct (String.eqb m x); [discriminate|auto]. Qed.
Lemma own_bnd c X m n v : closed c X -> loaded X m = true -> In n (own m) -> bnd (full c) m n = Some v -> bnd X m n = Some v.
Proof. intros K L I B. destruct (cl_own _ _ K _ _ L I) as [w W]. pose proof (cl_cons _ _ K _ _ _ W). congruence. Qed.
Definition keeps (X : istate) (c : bool) (I : string -> istate -> oc) : Prop :=
  forall q s t, loaded X q = true -> cons c s -> I q s = Done t -> within X s t.
Lemma from_within c X I m p n a s t w : closed c X -> good c I -> keeps X c I -> cons c s -> loaded X m = true -> In a (own m) ->
  (known lib p = true -> loaded X p = true) -> (is_pkg lib p && known lib (sub_name p n) = true -> known lib p = true -> loaded X (sub_name p n) = true) ->
  from_okb (full c) m p n a w = true -> (ext_of c p = true -> w = VExt p n) ->
  from_import lib (ext_of c) I m p n a s = Done t -> within X s t.
Proof.
  intros K G W C Lm Ia Dp Dq Ok Wx. unfold from_okb in Ok. unfold from_import. destruct (known lib p) eqn:Kp.
  - destruct (bnd (full c) p n) as [v|] eqn:B; [|discriminate]. apply andb_prop in Ok. destruct Ok as [K1 K2].
    apply is_val_eq in K1. pose proof (own_bnd _ _ _ _ _ K Lm Ia K1) as Xa.
    destruct (I p s) as [s1|] eqn:E1; [|discriminate]. destruct (G _ _ _ C E1) as (C1 & L1 & _).
    pose proof (W _ _ _ (Dp eq_refl) C E1) as W1.
    destruct (bnd s1 p n) as [v1|] eqn:B1.
    + intros [= <-]. pose proof (C1 _ _ _ B1) as Q. assert (v1 = v) by congruence. subst v1.
      eapply within_trans; [exact W1|]. now apply within_set.
    + destruct (is_pkg lib p && known lib (sub_name p n)) eqn:Kq; [|discriminate].
      apply val_eqb_eq in K2.
      destruct (I (sub_name p n) s1) as [s2|] eqn:E2; [|discriminate]. destruct (G _ _ _ C1 E2) as (C2 & L2 & _).
      pose proof (W _ _ _ (Dq eq_refl eq_refl) C1 E2) as W2.
      assert (Z : within X s (setattr m a v s2)).
      { eapply within_trans; [exact W1|]. eapply within_trans; [exact W2|]. now apply within_set. }
      destruct (bnd s2 p n) as [v2|] eqn:B2.
      * intros [= <-]. pose proof (C2 _ _ _ B2) as Q. assert (v2 = v) by congruence. now subst v2.
      * destruct (loaded s2 (sub_name p n)); [|discriminate]. intros [= <-]. now rewrite <- K2.
  - apply is_val_eq in Ok. destruct (ext_of c p) eqn:Xp; [|discriminate]. rewrite (Wx eq_refl) in Ok.
    intros [= <-]. apply within_set. exact (own_bnd _ _ _ _ _ K Lm Ia Ok).
Qed.
Lemma dep1_deps m e x d : assoc lib m = Some e -> In x (m_body e) -> In d (dep1 x) -> In d (deps m).
Proof. intros A I D. unfold deps. rewrite A. apply in_or_app. right. apply in_flat_map. now exists x. Qed.
Lemma own_binds m e x : assoc lib m = Some e -> In x (m_body e) -> In (binds x) (own m).
Proof. intros A I. unfold own. rewrite A. now apply in_map. Qed.
Lemma exec1_within c X I m e x s t : closed c X -> good c I -> keeps X c I -> cons c s -> loaded X m = true ->
  assoc lib m = Some e -> In x (m_body e) -> exec1 lib (ext_of c) strict I m x s = Done t -> within X s t.
Proof.
  intros K G W C Lm A Ix. pose proof (stmt_ok c _ _ _ A Ix) as Ok. pose proof (own_binds _ _ _ A Ix) as Ow.
  assert (Dep : forall d, In d (dep1 x) -> loaded X d = true) by (intros d Hd; apply (cl_dep _ _ K m); [exact Lm|exact (dep1_deps _ _ _ _ A Ix Hd)]).
  destruct x as [n us|n u|p top|p n a|p n a]; cbn [exec1]; cbn [stmt_okb] in Ok; cbn [binds] in Ow; cbn [dep1] in Dep.
  - destruct (resolve_all s m us); [discriminate|]. intros [= <-]. apply is_val_eq in Ok.
    apply within_set. exact (own_bnd _ _ _ _ _ K Lm Ow Ok).
  - destruct (resolve s m u) as [v|] eqn:R; [|discriminate]. intros [= <-].
    rewrite (resolve_full _ _ _ _ _ C R) in Ok. apply is_val_eq in Ok. apply within_set. exact (own_bnd _ _ _ _ _ K Lm Ow Ok).
  - apply is_val_eq in Ok. destruct (known lib p).
    + destruct (I p s) as [s1|] eqn:E; [|discriminate]. intros [= <-].
      eapply within_trans; [exact (W _ _ _ (Dep _ (or_introl eq_refl)) C E)|]. apply within_set. exact (own_bnd _ _ _ _ _ K Lm Ow Ok).
    + destruct (ext_of c p); [|discriminate]. intros [= <-]. apply within_set. exact (own_bnd _ _ _ _ _ K Lm Ow Ok).
  - intros H. eapply from_within; [exact K|exact G|exact W|exact C|exact Lm|exact Ow| | |exact Ok| |exact H].
    + intros Kp. rewrite Kp in Dep. apply Dep. now left.
    + intros Kq Kp. rewrite Kp, Kq in Dep. apply Dep. right. now left.
    + reflexivity.
  - destruct (known lib p) eqn:Kp.
    + destruct (from_import lib (ext_of c) I m p n a s) as [s1|er s1] eqn:E; [|discriminate]. intros [= <-].
      eapply from_within; [exact K|exact G|exact W|exact C|exact Lm|exact Ow| | |exact Ok| |exact E].
      * intros _. apply Dep. now left.
      * intros Kq _. rewrite Kq in Dep. apply Dep. right. now left.
      * intros Q. now rewrite Q.
    + intros [= <-]. unfold from_okb in Ok. rewrite Kp in Ok. apply is_val_eq in Ok.
      apply within_set. exact (own_bnd _ _ _ _ _ K Lm Ow Ok).
Qed.
Lemma exec_within c X I m e b : closed c X -> good c I -> keeps X c I -> loaded X m = true -> assoc lib m = Some e ->
  incl b (m_body e) -> forall s t, cons c s -> exec lib (ext_of c) strict I m b s = Done t -> within X s t.
Proof.
  intros K G W Lm A. induction b as [|x b IH]; intros Inc s t C; cbn [exec].
  - intros [= <-]. apply within_refl.
  - destruct (exec1 lib (ext_of c) strict I m x s) as [s1|] eqn:E; [|discriminate]. intros H.
    pose proof (Inc x (or_introl eq_refl)) as Ix.
    destruct (exec1_good _ _ _ _ _ _ G C (stmt_ok c _ _ _ A Ix) E) as [C1 L1].
    eapply within_trans; [exact (exec1_within _ _ _ _ _ _ _ _ K G W C Lm A Ix E)|].
    exact (IH (fun y Hy => Inc y (or_intror Hy)) _ _ C1 H).
Qed.
Lemma simp_within c X f : closed c X -> keeps X c (simp c f).
Proof.
  intros K. induction f as [|f IH]; intros q s t Lq C; unfold simp; cbn [imp]; [discriminate|].
  destruct (loaded s q) eqn:L; [intros [= <-]; apply within_refl|].
  destruct (assoc lib q) as [e|] eqn:A; [|discriminate].
  assert (P : forall s1, (match m_parent e with None => Done s | Some (p, _) => imp lib (ext_of c) strict f p s end) = Done s1 -> cons c s1 /\ within X s s1).
  { intros s1. destruct (m_parent e) as [[p n]|] eqn:Pe.
    - intros H. destruct (simp_good c f _ _ _ C H) as (C1 & _ & _). split; [exact C1|].
      apply (IH p); [|exact C|exact H]. apply (cl_dep _ _ K q); [exact Lq|]. unfold deps. rewrite A, Pe. now left.
    - intros [= <-]. split; [exact C|apply within_refl]. }
  destruct (match m_parent e with None => Done s | Some (p, _) => imp lib (ext_of c) strict f p s end) as [s1|]; [|discriminate].
  destruct (P _ eq_refl) as [C1 W1].
  destruct (loaded s1 q) eqn:Ls1; [intros [= <-]; exact W1|].
  destruct (exec lib (ext_of c) strict (imp lib (ext_of c) strict f) q (m_body e) ((q, []) :: s1)) as [s2|] eqn:Ex; [|discriminate].
  pose proof (exec_within c X _ q e (m_body e) K (simp_good c f) IH Lq A (incl_refl _) _ _ (cons_new _ _ _ C1) Ex) as W2.
  pose proof (within_trans _ _ _ _ W1 (within_trans _ _ _ _ (within_new _ _ _ Lq) W2)) as W3.
  destruct (m_parent e) as [[p n]|] eqn:Pe; intros [= <-]; [|exact W3].
  eapply within_trans; [exact W3|]. apply within_set.
  destruct (parent_ok c _ _ _ _ A Pe) as [B _].
  assert (Pq : parent q = Some (p, n)) by (unfold parent; now rewrite A).
  destruct (cl_child _ _ K _ _ _ Lq Pq) as [v V]. pose proof (cl_cons _ _ K _ _ _ V). congruence.
Qed.

(** ** An import does the same when other modules are there already *)
Definition join (s X s' : istate) : Prop :=
  (forall m, loaded s' m = loaded s m || loaded X m)
  /\ (forall m n, bnd s' m n = match bnd s m n with Some v => Some v | None => bnd X m n end).
Lemma join_le s X s' : join s X s' -> le s s'.
Proof. intros [A B]. split; [intros m H; rewrite A, H; reflexivity|intros m n v H; now rewrite B, H]. Qed.
Lemma join_cons c s X s' : join s X s' -> cons c s -> cons c X -> cons c s'.
Proof. intros [_ B] C D m n v. rewrite B. destruct (bnd s m n) eqn:E; [intros [= <-]; now apply C|apply D]. Qed.
Lemma join_within c s t X s' : join s X s' -> cons c t -> cons c X -> le s t -> within X s t -> join t X s'.
Proof.
  intros [A B] Ct CX [L1 L2] [W1 W2]. split.
  - intros m. rewrite A. destruct (loaded t m) eqn:E.
    + destruct (W1 _ E) as [->| ->]; [reflexivity|apply orb_true_r].
    + destruct (loaded s m) eqn:F; [rewrite (L1 _ F) in E; discriminate|reflexivity].
  - intros m n. rewrite B. destruct (bnd t m n) as [v|] eqn:E.
    + destruct (W2 _ _ _ E) as [->|H]; [reflexivity|]. destruct (bnd s m n) as [w|] eqn:F; [|exact H].
      apply L2 in F. congruence.
    + destruct (bnd s m n) as [w|] eqn:F; [apply L2 in F; congruence|reflexivity].
Qed.
Lemma join_set s X s' m n v : join s X s' -> loaded s m = true -> join (setattr m n v s) X (setattr m n v s').
Proof.
  intros [A B] L. split.
  - intros x. now rewrite !loaded_setattr.
  - intros x y. rewrite !bnd_setattr, L, (A m), L. cbn [orb]. rewrite !andb_true_r.
    destruct (String.eqb x m && String.eqb y n); [reflexivity|apply B].
Qed.
Definition follows (c : bool) (X : istate) (I : string -> istate -> oc) : Prop :=
  forall q s t s', cons c s -> join s X s' -> I q s = Done t -> exists t', I q s' = Done t' /\ join t X t'.
Lemma from_follows c X I m p n a s t s' w : closed c X -> good c I -> keeps X c I -> follows c X I ->
  cons c s -> join s X s' -> loaded s m = true ->
  from_okb (full c) m p n a w = true -> (ext_of c p = true -> w = VExt p n) ->
  from_import lib (ext_of c) I m p n a s = Done t -> exists t', from_import lib (ext_of c) I m p n a s' = Done t' /\ join t X t'.
Proof.
  intros K G W Fo C J Lm Ok Wx. unfold from_okb in Ok. unfold from_import. destruct (known lib p) eqn:Kp.
  - destruct (bnd (full c) p n) as [v|] eqn:B; [|discriminate]. apply andb_prop in Ok. destruct Ok as [K1 K2].
    apply is_val_eq in K1.
    destruct (I p s) as [s1|] eqn:E1; [|discriminate]. destruct (G _ _ _ C E1) as (C1 & L1 & _).
    destruct (Fo _ _ _ _ C J E1) as (s1' & E1' & J1). rewrite E1'. pose proof (proj1 L1 _ Lm) as Lm1.
    rewrite (proj2 J1 p n). destruct (bnd s1 p n) as [v1|] eqn:B1.
    + intros [= <-]. eexists. split; [reflexivity|]. now apply join_set.
    + destruct (is_pkg lib p && known lib (sub_name p n)) eqn:Kq; [|discriminate].
      apply val_eqb_eq in K2.
      destruct (I (sub_name p n) s1) as [s2|] eqn:E2; [|discriminate]. destruct (G _ _ _ C1 E2) as (C2 & L2 & Lq).
      pose proof (proj1 L2 _ Lm1) as Lm2. rewrite Lq.
      destruct (bnd X p n) as [vx|] eqn:Bx.
      * (* the name is there already: the submodule is complete *)
        pose proof (cl_cons _ _ K _ _ _ Bx) as Q. assert (vx = v) by congruence. subst vx.
        assert (LX : loaded X (sub_name p n) = true) by (apply (cl_mod _ _ K p n); congruence).
        pose proof (join_within c _ _ _ _ J1 C2 (cl_cons _ _ K) L2 (W _ _ _ LX C1 E2)) as J2.
        intros H. exists (setattr m a v s1'). split; [reflexivity|].
        assert (T : t = setattr m a v s2).
        { destruct (bnd s2 p n) as [v2|] eqn:B2; [pose proof (C2 _ _ _ B2)|]; congruence. }
        subst t. now apply join_set.
      * destruct (Fo _ _ _ _ C1 J1 E2) as (s2' & E2' & J2). rewrite E2'. rewrite (proj2 J2 p n), Bx, (proj1 J2), Lq. cbn [orb].
        intros H. exists (setattr m a v s2').
        assert (T : t = setattr m a v s2).
        { destruct (bnd s2 p n) as [v2|] eqn:B2; [pose proof (C2 _ _ _ B2)|]; congruence. }
        subst t. split; [|now apply join_set].
        destruct (bnd s2 p n) as [v2|] eqn:B2; [pose proof (C2 _ _ _ B2); congruence|congruence].
  - destruct (ext_of c p); [|discriminate]. intros [= <-]. eexists. split; [reflexivity|]. now apply join_set.
Qed.
Lemma exec1_follows c X I m e x s t s' : closed c X -> good c I -> keeps X c I -> follows c X I -> cons c s -> join s X s' -> loaded s m = true ->
  assoc lib m = Some e -> In x (m_body e) -> exec1 lib (ext_of c) strict I m x s = Done t ->
  exists t', exec1 lib (ext_of c) strict I m x s' = Done t' /\ join t X t'.
Proof.
  intros K G W Fo C J Lm A Ix. pose proof (stmt_ok c _ _ _ A Ix) as Ok.
  pose proof (join_le _ _ _ J) as Le. pose proof (join_cons _ _ _ _ J C (cl_cons _ _ K)) as C'.
  destruct x as [n us|n u|p top|p n a|p n a]; cbn [exec1]; cbn [stmt_okb] in Ok.
  - destruct (resolve_all s m us) eqn:R; [discriminate|]. rewrite (resolve_all_le _ _ _ _ _ Le C' R).
    intros [= <-]. eexists. split; [reflexivity|]. now apply join_set.
  - destruct (resolve s m u) as [v|] eqn:R; [|discriminate]. rewrite (resolve_le _ _ _ _ _ _ Le C' R).
    intros [= <-]. eexists. split; [reflexivity|]. now apply join_set.
  - destruct (known lib p).
    + destruct (I p s) as [s1|] eqn:E; [|discriminate]. destruct (Fo _ _ _ _ C J E) as (s1' & E' & J1). rewrite E'.
      destruct (G _ _ _ C E) as (_ & L1 & _). intros [= <-]. eexists. split; [reflexivity|]. apply join_set; [exact J1|exact (proj1 L1 _ Lm)].
    + destruct (ext_of c p); [|discriminate]. intros [= <-]. eexists. split; [reflexivity|]. now apply join_set.
  - intros H. eapply from_follows; [exact K|exact G|exact W|exact Fo|exact C|exact J|exact Lm|exact Ok| |exact H]. reflexivity.
  - destruct (known lib p) eqn:Kp.
    + destruct (from_import lib (ext_of c) I m p n a s) as [s1|er s1] eqn:E; [|discriminate]. intros [= <-].
      destruct (from_follows c X I m p n a s s1 s' _ K G W Fo C J Lm Ok) as (t' & E' & J'); [intros Q; now rewrite Q|exact E|].
      rewrite E'. now exists t'.
    + intros [= <-]. eexists. split; [reflexivity|]. now apply join_set.
Qed.
Lemma exec_follows c X I m e b : closed c X -> good c I -> keeps X c I -> follows c X I -> assoc lib m = Some e -> incl b (m_body e) ->
  forall s t s', cons c s -> join s X s' -> loaded s m = true -> exec lib (ext_of c) strict I m b s = Done t ->
  exists t', exec lib (ext_of c) strict I m b s' = Done t' /\ join t X t'.
Proof.
  intros K G W Fo A. induction b as [|x b IH]; intros Inc s t s' C J Lm; cbn [exec].
  - intros [= <-]. now exists s'.
  - destruct (exec1 lib (ext_of c) strict I m x s) as [s1|] eqn:E; [|discriminate]. intros H.
    pose proof (Inc x (or_introl eq_refl)) as Ix.
    destruct (exec1_good _ _ _ _ _ _ G C (stmt_ok c _ _ _ A Ix) E) as [C1 L1].
    destruct (exec1_follows _ _ _ _ _ _ _ _ _ K G W Fo C J Lm A Ix E) as (s1' & E' & J1). rewrite E'.
    exact (IH (fun y Hy => Inc y (or_intror Hy)) _ _ _ C1 J1 (proj1 L1 _ Lm) H).
Qed.
Lemma join_new s X s' m : join s X s' -> loaded s m = false -> loaded X m = false -> join ((m, []) :: s) X ((m, []) :: s').
Proof. intros [A B] Ls LX. split.
  - intros x. rewrite !loaded_new, A. now rewrite orb_assoc.
  - intros x y. rewrite !bnd_new. destruct (String.eqb m x) eqn:E; [|apply B].
    apply eqb_true in E. subst. destruct (bnd X x y) eqn:F; [apply bnd_loaded in F; congruence|reflexivity]. Qed.
Lemma simp_follows c X f : closed c X -> follows c X (simp c f).
Proof.
  intros K. induction f as [|f IH]; intros q s t s' C J; unfold simp; cbn [imp]; [discriminate|].
  rewrite (proj1 J q). destruct (loaded s q) eqn:L; [intros [= <-]; now exists s'|]. cbn [orb].
  destruct (loaded X q) eqn:LX.
  { (* the module is among the complete ones *)
    intros H. exists s'. split; [reflexivity|].
    assert (H' : simp c (S f) q s = Done t) by (unfold simp; cbn [imp]; rewrite L; exact H).
    destruct (simp_good c (S f) _ _ _ C H') as (Ct & Lt & _).
    exact (join_within c _ _ _ _ J Ct (cl_cons _ _ K) Lt (simp_within c X (S f) K _ _ _ LX C H')). }
  destruct (assoc lib q) as [e|] eqn:A; [|discriminate].
  assert (P : forall s1, (match m_parent e with None => Done s | Some (p, _) => imp lib (ext_of c) strict f p s end) = Done s1 ->
     cons c s1 /\ (forall p n, m_parent e = Some (p, n) -> loaded s1 p = true)
     /\ exists s1', (match m_parent e with None => Done s' | Some (p, _) => imp lib (ext_of c) strict f p s' end) = Done s1' /\ join s1 X s1').
  { intros s1. destruct (m_parent e) as [[p n]|].
    - intros H. destruct (simp_good c f _ _ _ C H) as (C1 & _ & Lp). split; [exact C1|].
      split; [intros p' n' [= <- <-]; exact Lp|]. exact (IH _ _ _ _ C J H).
    - intros [= <-]. split; [exact C|]. split; [discriminate|]. now exists s'. }
  destruct (match m_parent e with None => Done s | Some (p, _) => imp lib (ext_of c) strict f p s end) as [s1|]; [|discriminate].
  destruct (P _ eq_refl) as (C1 & Lp & s1' & -> & J1).
  rewrite (proj1 J1 q), LX, orb_false_r.
  destruct (loaded s1 q) eqn:Ls1; [intros [= <-]; now exists s1'|].
  destruct (exec lib (ext_of c) strict (imp lib (ext_of c) strict f) q (m_body e) ((q, []) :: s1)) as [s2|] eqn:Ex; [|discriminate].
  assert (Lq0 : loaded ((q, []) :: s1) q = true) by (rewrite loaded_new, String.eqb_refl; reflexivity).
  destruct (exec_follows c X _ q e (m_body e) K (simp_good c f) (simp_within c X f K) IH A (incl_refl _) _ _ _
              (cons_new _ _ _ C1) (join_new _ _ _ _ J1 Ls1 LX) Lq0 Ex) as (s2' & Ex' & J2).
  unfold simp in Ex'. rewrite Ex'.
  destruct (exec_good c _ q (m_body e) (simp_good c f) (fun x => stmt_ok c q e x A) _ _ (cons_new _ _ _ C1) Ex) as [C2 L2].
  destruct (m_parent e) as [[p n]|] eqn:Pe; intros [= <-]; eexists; (split; [reflexivity|]); [|exact J2].
  apply join_set; [exact J2|]. apply (proj1 L2), (proj1 (le_new q s1 Ls1)), (Lp p n eq_refl).
Qed.

(** ** From the strict semantics to Python's, and more fuel *)
Definition sub (I J : string -> istate -> oc) : Prop := forall q s t, I q s = Done t -> J q s = Done t.
Lemma from_sub c I J m p n a s t : sub I J -> from_import lib (ext_of c) I m p n a s = Done t -> from_import lib (ext_of c) J m p n a s = Done t.
Proof.
  intros H. unfold from_import. destruct (known lib p); [|auto].
  destruct (I p s) as [s1|] eqn:E; [|discriminate]. rewrite (H _ _ _ E). destruct (bnd s1 p n); [auto|].
  destruct (is_pkg lib p && known lib (sub_name p n)); [|discriminate].
  destruct (I (sub_name p n) s1) as [s2|] eqn:E2; [|discriminate]. now rewrite (H _ _ _ E2).
Qed.
Lemma exec_sub c k I J m b : sub I J -> forall s t, exec lib (ext_of c) strict I m b s = Done t -> exec lib (ext_of c) k J m b s = Done t.
Proof.
  intros H. induction b as [|x b IH]; intros s t; cbn [exec]; [auto|].
  destruct (exec1 lib (ext_of c) strict I m x s) as [s1|] eqn:E; [|discriminate].
  assert (E' : exec1 lib (ext_of c) k J m x s = Done s1).
  { destruct x as [n us|n u|p top|p n a|p n a]; cbn [exec1] in *; try exact E.
    - destruct (known lib p); [|exact E]. destruct (I p s) as [s2|] eqn:E2; [|discriminate]. now rewrite (H _ _ _ E2).
    - now apply (from_sub c I J).
    - destruct (known lib p); [|exact E].
      destruct (from_import lib (ext_of c) I m p n a s) as [s2|] eqn:E2; [|discriminate].
      now rewrite (from_sub c I J _ _ _ _ _ _ H E2). }
  rewrite E'. apply IH.
Qed.
Lemma imp_sub c k f : forall f', (f <= f')%nat -> sub (simp c f) (imp lib (ext_of c) k f').
Proof.
  induction f as [|f IH]; intros f' Hf q s t; unfold simp; [discriminate|].
  destruct f' as [|f']; [lia|]. assert (Hf' : (f <= f')%nat) by lia. specialize (IH _ Hf').
  cbn [imp]. destruct (loaded s q); [auto|]. destruct (assoc lib q) as [e|]; [|discriminate].
  destruct (m_parent e) as [[p n]|] eqn:Pe.
  - destruct (imp lib (ext_of c) strict f p s) as [s1|] eqn:E; [|discriminate]. rewrite (IH _ _ _ E).
    destruct (loaded s1 q); [auto|].
    destruct (exec lib (ext_of c) strict (imp lib (ext_of c) strict f) q (m_body e) ((q, []) :: s1)) as [s2|] eqn:X; [|discriminate].
    now rewrite (exec_sub c k _ _ _ _ IH _ _ X).
  - destruct (loaded s q); [auto|].
    destruct (exec lib (ext_of c) strict (imp lib (ext_of c) strict f) q (m_body e) ((q, []) :: s)) as [s2|] eqn:X; [|discriminate].
    now rewrite (exec_sub c k _ _ _ _ IH _ _ X).
Qed.

(** ** The first import of each module *)
Definition closedb (F X : istate) : bool :=
  forallb (fun mn =>
     let m := fst mn in
     known lib m && forallb (loaded X) (deps m)
     && forallb (fun n => match bnd X m n with Some _ => true | None => false end) (own m)
     && match parent m with Some (p, n) => match bnd X p n with Some _ => true | None => false end | None => true end
     && forallb (fun nv => is_val (bnd F m (fst nv)) (snd nv) && match snd nv with VMod q => loaded X q | _ => true end) (snd mn)) X.
Lemma closedb_ok_gen F X : closedb F X = true ->
  (forall m, loaded X m = true -> known lib m = true) /\
  (forall m d, loaded X m = true -> In d (deps m) -> loaded X d = true) /\
  (forall m n, loaded X m = true -> In n (own m) -> exists v, bnd X m n = Some v) /\
  (forall q p n, loaded X q = true -> parent q = Some (p, n) -> exists v, bnd X p n = Some v) /\
  (forall m n q, bnd X m n = Some (VMod q) -> loaded X q = true) /\
  (forall m n v, bnd X m n = Some v -> bnd F m n = Some v).
Proof.
  intros H. unfold closedb in H. rewrite forallb_forall in H.
  assert (G : forall m ns, assoc X m = Some ns -> known lib m = true /\ (forall d, In d (deps m) -> loaded X d = true)
     /\ (forall n, In n (own m) -> exists v, bnd X m n = Some v)
     /\ (forall p n, parent m = Some (p, n) -> exists v, bnd X p n = Some v)
     /\ (forall n v, In (n, v) ns -> bnd F m n = Some v /\ (forall q, v = VMod q -> loaded X q = true))).
  { intros m ns A. specialize (H _ (assoc_In _ _ _ A)). cbv zeta in H. cbn [fst snd] in H.
    apply andb_prop in H. destruct H as [H H5]. apply andb_prop in H. destruct H as [H H4].
    apply andb_prop in H. destruct H as [H H3]. apply andb_prop in H. destruct H as [H1 H2].
    rewrite forallb_forall in H2, H3, H5. split; [exact H1|]. split; [exact H2|]. split; [|split].
    - intros n I. specialize (H3 _ I). destruct (bnd X m n) as [v|]; [now exists v|discriminate].
    - intros p n E. rewrite E in H4. destruct (bnd X p n) as [v|]; [now exists v|discriminate].
    - intros n v I. specialize (H5 _ I). cbn [fst snd] in H5. apply andb_prop in H5. destruct H5 as [A1 A2].
      split; [exact (is_val_eq _ _ A1)|]. intros q ->. exact A2. }
  assert (L : forall m, loaded X m = true -> exists ns, assoc X m = Some ns).
  { intros m. unfold loaded. destruct (assoc X m) as [ns|]; [now exists ns|discriminate]. }
  assert (B : forall m n v, bnd X m n = Some v -> exists ns, assoc X m = Some ns /\ In (n, v) ns).
  { intros m n v. unfold bnd. destruct (assoc X m) as [ns|]; [|discriminate]. intros E. exists ns. split; [reflexivity|now apply assoc_In]. }
  split; [|split; [|split; [|split; [|split]]]].
  - intros m Lm. destruct (L _ Lm) as [ns A]. apply (G _ _ A).
  - intros m d Lm. destruct (L _ Lm) as [ns A]. apply (G _ _ A).
  - intros m n Lm. destruct (L _ Lm) as [ns A]. apply (G _ _ A).
  - intros m p n Lm. destruct (L _ Lm) as [ns A]. apply (G _ _ A).
  - intros m n q E. destruct (B _ _ _ E) as (ns & A & I). apply (proj2 (proj2 (proj2 (proj2 (G _ _ A)))) _ _ I). reflexivity.
  - intros m n v E. destruct (B _ _ _ E) as (ns & A & I). apply (proj2 (proj2 (proj2 (proj2 (G _ _ A)))) _ _ I).
Qed.
Lemma closedb_ok c X : closedb (full c) X = true -> closed c X.
Proof. intros H. destruct (closedb_ok_gen (full c) X H) as (A1 & A2 & A3 & A4 & A5 & A6). now constructor. Qed.
Definition firstb (c : bool) (F : istate) (f : nat) (m : string) : bool :=
  match simp c f m [] with Done s => loaded s m && closedb F s | Fail _ _ => false end.
Definition all_firstb (c : bool) (F : istate) (f : nat) : bool := forallb (firstb c F f) lib_names.
Lemma all_first c : all_firstb c (full c) 40 = true.
Proof. destruct c; vm_compute; reflexivity. Qed.
Definition ready (c : bool) (f : nat) : Prop := forall m, In m lib_names -> exists s, simp c f m [] = Done s /\ loaded s m = true /\ closed c s.
Lemma ready_gen c F f : (forall X, closedb F X = true -> closed c X) -> all_firstb c F f = true -> ready c f.
Proof.
  intros G H m I. unfold all_firstb in H. rewrite forallb_forall in H. specialize (H _ I). unfold firstb in H.
  destruct (simp c f m []) as [s|]; [|discriminate]. apply andb_prop in H. destruct H as [L H].
  exists s. split; [reflexivity|]. split; [exact L|now apply G].
Qed.
Lemma ready_40 c : ready c 40.
Proof. exact (ready_gen c (full c) 40 (closedb_ok c) (all_first c)). Qed.

(** ** Any sequence *)
Lemma join_closed c s X t : join s X t -> closed c s -> closed c X -> closed c t.
Proof.
  intros J Ks KX. destruct J as [A B].
  assert (Lf : forall m, loaded t m = true -> loaded s m = true \/ loaded X m = true) by (intros m; rewrite A; apply orb_prop).
  assert (L1 : forall m, loaded s m = true -> loaded t m = true) by (intros m H; now rewrite A, H).
  assert (L2 : forall m, loaded X m = true -> loaded t m = true) by (intros m H; rewrite A, H; apply orb_true_r).
  assert (B1 : forall m n, (exists v, bnd s m n = Some v) -> exists v, bnd t m n = Some v) by (intros m n [v V]; exists v; now rewrite B, V).
  assert (B2 : forall m n, (exists v, bnd X m n = Some v) -> exists v, bnd t m n = Some v).
  { intros m n [v V]. rewrite B. destruct (bnd s m n) as [w|]; [now exists w|now exists v]. }
  constructor.
  - intros m H. destruct (Lf _ H) as [G|G]; [exact (cl_tab _ _ Ks _ G)|exact (cl_tab _ _ KX _ G)].
  - intros m d H D. destruct (Lf _ H) as [G|G]; [apply L1, (cl_dep _ _ Ks _ _ G D)|apply L2, (cl_dep _ _ KX _ _ G D)].
  - intros m n H D. destruct (Lf _ H) as [G|G]; [apply B1, (cl_own _ _ Ks _ _ G D)|apply B2, (cl_own _ _ KX _ _ G D)].
  - intros q p n H D. destruct (Lf _ H) as [G|G]; [apply B1, (cl_child _ _ Ks _ _ _ G D)|apply B2, (cl_child _ _ KX _ _ _ G D)].
  - intros m n q. rewrite B. destruct (bnd s m n) as [w|] eqn:E.
    + intros [= ->]. apply L1, (cl_mod _ _ Ks _ _ _ E).
    + intros F. apply L2, (cl_mod _ _ KX _ _ _ F).
  - intros m n v. rewrite B. destruct (bnd s m n) as [w|] eqn:E; [intros [= <-]; exact (cl_cons _ _ Ks _ _ _ E)|apply (cl_cons _ _ KX)].
Qed.
Definition first (c : bool) (f : nat) (m : string) : istate := match simp c f m [] with Done s => s | Fail _ _ => [] end.
Lemma step_ok c f fuel m X : ready c f -> (f <= fuel)%nat -> In m lib_names -> closed c X ->
  exists t, imp lib (ext_of c) is_import_error fuel m X = Done t /\ join (first c f m) X t /\ closed c t /\ loaded (first c f m) m = true /\ closed c (first c f m).
Proof.
  intros R Hf I K. destruct (R m I) as (s & E & L & Ks). unfold first. rewrite E.
  assert (C0 : cons c []) by (intros ? ? ?; discriminate).
  assert (J0 : join [] X X) by (split; reflexivity).
  destruct (simp_follows c X f K _ _ _ _ C0 J0 E) as (t & Et & J).
  exists t. split; [exact (imp_sub c is_import_error f fuel Hf _ _ _ Et)|]. split; [exact J|].
  split; [exact (join_closed _ _ _ _ J Ks K)|]. now split.
Qed.
Lemma run_ok c f fuel l : ready c f -> (f <= fuel)%nat -> of_library l -> forall X, closed c X ->
  exists t, import_all lib (ext_of c) fuel l X = Done t /\ closed c t
    /\ (forall m, loaded t m = true <-> (loaded X m = true \/ exists q, In q l /\ loaded (first c f q) m = true))
    /\ (forall m n v, bnd t m n = Some v <-> (bnd X m n = Some v \/ exists q, In q l /\ bnd (first c f q) m n = Some v))
    /\ (forall q, In q l -> loaded (first c f q) q = true).
Proof.
  intros R Hf. induction l as [|m l IH]; intros Hl X K; cbn [import_all].
  - exists X. split; [reflexivity|]. split; [exact K|]. split; [|split].
    + intros m. split; [auto|intros [H|(q & [] & _)]; exact H].
    + intros m n v. split; [auto|intros [H|(q & [] & _)]; exact H].
    + intros q [].
  - destruct (step_ok c f fuel m X R Hf (Hl m (or_introl eq_refl)) K) as (s & -> & [JA JB] & Ks & Lm & Km).
    destruct (IH (fun q Hq => Hl q (or_intror Hq)) s Ks) as (t & E & Kt & A & B & D). exists t.
    split; [exact E|]. split; [exact Kt|]. split; [|split].
    + intros x. rewrite A, JA. rewrite orb_true_iff. split.
      * intros [[H|H]|(q & I & H)]; [right; exists m; split; [now left|exact H]|now left|right; exists q; split; [now right|exact H]].
      * intros [H|(q & [<-|I] & H)]; [left; now right|left; now left|right; now exists q].
    + intros x n v. rewrite B, JB. split.
      * intros [H|(q & I & H)].
        -- destruct (bnd (first c f m) x n) as [w|] eqn:F; [|now left]. right. exists m. split; [now left|congruence].
        -- right. exists q. split; [now right|exact H].
      * intros [H|(q & [<-|I] & H)].
        -- left. destruct (bnd (first c f m) x n) as [w|] eqn:F; [|exact H].
           pose proof (cl_cons _ _ Km _ _ _ F). pose proof (cl_cons _ _ K _ _ _ H). congruence.
        -- left. now rewrite H.
        -- right. now exists q.
    + intros q [<-|I]; [exact Lm|now apply D].
Qed.
Lemma closed_nil c : closed c [].
Proof. constructor; intros; discriminate. Qed.
Lemma program_ok_gen c f fuel l : ready c f -> (f <= fuel)%nat -> of_library l ->
  exists t, program c fuel l = Done t /\ closed c t
    /\ (forall m, loaded t m = true <-> exists q, In q l /\ loaded (first c f q) m = true)
    /\ (forall m n v, bnd t m n = Some v <-> exists q, In q l /\ bnd (first c f q) m n = Some v)
    /\ (forall q, In q l -> loaded t q = true).
Proof.
  intros R Hf Hl. destruct (run_ok c f fuel l R Hf Hl [] (closed_nil c)) as (t & E & K & A & B & D). exists t.
  split; [exact E|]. split; [exact K|]. split; [|split].
  - intros m. rewrite A. split; [intros [H|H]; [discriminate|exact H]|now right].
  - intros m n v. rewrite B. split; [intros [H|H]; [discriminate|exact H]|now right].
  - intros q I. apply A. right. exists q. split; [exact I|now apply D].
Qed.
Lemma program_ok c fuel l : (40 <= fuel)%nat -> of_library l ->
  exists t, program c fuel l = Done t /\ closed c t /\ (forall q, In q l -> loaded t q = true).
Proof. intros Hf Hl. destruct (program_ok_gen c 40 fuel l (ready_40 c) Hf Hl) as (t & E & K & _ & _ & D). exists t. auto. Qed.
Lemma same_gen c f f1 f2 l1 l2 t1 t2 : ready c f -> (f <= f1)%nat -> (f <= f2)%nat -> of_library l1 -> (forall m, In m l1 <-> In m l2) ->
  program c f1 l1 = Done t1 -> program c f2 l2 = Done t2 -> same_modules t1 t2.
Proof.
  intros R H1 H2 O1 Iff E1 E2.
  assert (O2 : of_library l2) by (intros m I; apply O1, Iff, I).
  destruct (program_ok_gen c f f1 l1 R H1 O1) as (u1 & Q1 & _ & A1 & B1 & _). destruct (program_ok_gen c f f2 l2 R H2 O2) as (u2 & Q2 & _ & A2 & B2 & _).
  assert (u1 = t1) by congruence. assert (u2 = t2) by congruence. subst u1 u2. split.
  - intros m. destruct (loaded t1 m) eqn:L1, (loaded t2 m) eqn:L2; try reflexivity.
    + apply A1 in L1. destruct L1 as (q & I & L). assert (X : loaded t2 m = true) by (apply A2; exists q; split; [now apply Iff|exact L]). congruence.
    + apply A2 in L2. destruct L2 as (q & I & L). assert (X : loaded t1 m = true) by (apply A1; exists q; split; [now apply Iff|exact L]). congruence.
  - intros m n. destruct (bnd t1 m n) as [v|] eqn:L1.
    + apply B1 in L1. destruct L1 as (q & I & L). symmetry. apply B2. exists q. split; [now apply Iff|exact L].
    + destruct (bnd t2 m n) as [v|] eqn:L2; [|reflexivity]. apply B2 in L2. destruct L2 as (q & I & L).
      assert (X : bnd t1 m n = Some v) by (apply B1; exists q; split; [now apply Iff|exact L]). congruence.
Qed.

Lemma C127_any_order_partial_pf : forall c fuel l, (40 <= fuel)%nat -> of_library l ->
  exists t, program c fuel l = Done t /\ (forall m, In m l -> loaded t m = true)
    /\ (forall m e x, loaded t m = true -> assoc lib m = Some e -> In x (m_body e) -> exists v, bnd t m (binds x) = Some v).
Proof.
  intros c fuel l Hf Hl. destruct (program_ok c fuel l Hf Hl) as (t & E & K & D). exists t.
  split; [exact E|]. split; [exact D|]. intros m e x L A I. exact (cl_own _ _ K _ _ L (own_binds _ _ _ A I)).
Qed.

Lemma C127_same_partial_pf : forall c f1 f2 l1 l2 t1 t2, (40 <= f1)%nat -> (40 <= f2)%nat -> of_library l1 -> (forall m, In m l1 <-> In m l2) ->
  program c f1 l1 = Done t1 -> program c f2 l2 = Done t2 -> same_modules t1 t2.
Proof. intros c f1 f2 l1 l2 t1 t2 H1 H2. exact (same_gen c 40 f1 f2 l1 l2 t1 t2 (ready_40 c) H1 H2). Qed.

Definition shared_okb (F : istate) : bool :=
  forallb (fun e => forallb (fun nv => match assoc shared_classes (fst nv) with Some home => val_eqb (snd nv) (VDef home (fst nv)) | None => true end) (snd e)) F.
Lemma shared_ok c : shared_okb (full c) = true.
Proof. Transparent full. destruct c; vm_compute; reflexivity. Qed.
Opaque full.
Lemma shared_gen F m n v home : shared_okb F = true -> bnd F m n = Some v -> assoc shared_classes n = Some home -> v = VDef home n.
Proof.
  intros H B A. unfold shared_okb in H. rewrite forallb_forall in H. unfold bnd in B. destruct (assoc F m) as [ns|] eqn:E; [|discriminate].
  specialize (H _ (assoc_In _ _ _ E)). cbn [snd] in H. rewrite forallb_forall in H. specialize (H _ (assoc_In _ _ _ B)). cbn [fst snd] in H.
  rewrite A in H. exact (val_eqb_eq _ _ H).
Qed.

Lemma C127_one_class_partial_pf : forall c fuel l t m n v home, (40 <= fuel)%nat -> of_library l -> program c fuel l = Done t ->
  bnd t m n = Some v -> assoc shared_classes n = Some home -> v = VDef home n.
Proof.
  intros c fuel l t m n v home Hf Hl E B A. destruct (program_ok c fuel l Hf Hl) as (u & Q & K & _). assert (u = t) by congruence. subst u.
  exact (shared_gen (full c) m n v home (shared_ok c) (cl_cons _ _ K _ _ _ B) A).
Qed.

(** ** Installed *)
Definition sec : string := "pythoncard.security".
Definition sk : string := "pythoncard.security.secretkey".
Record blocked (s : istate) : Prop := mkBlocked {
  bl_des : bnd s "pyDes" "pyDes" = None;
  bl_key : bnd s sec "secretkey" = None;
  bl_parent : loaded s sk = true -> loaded s sec = true }.
Definition held (s t : istate) : Prop :=
  blocked t /\ (loaded s sk = false -> loaded t sk = false) /\ (loaded s sec = false -> loaded t sec = false).
Lemma held_refl s : blocked s -> held s s. Proof. intros H. split; auto. Qed.
Lemma held_trans s t u : held s t -> held t u -> held s u.
Proof. intros (A & B & D) (A' & B' & D'). split; [exact A'|]. split; auto. Qed.
Definition bad (I : string -> istate -> oc) : Prop := forall q s, blocked s ->
  match I q s with
  | Done t => held s t /\ (q = sec -> loaded s sec = true) /\ (q = sk -> loaded s sk = true)
  | Fail _ t => held s t
  end.
Lemma assoc_unload m s x : assoc (unload m s) x = if String.eqb m x then None else assoc s x.
Proof.
  unfold unload. induction s as [|[k w] s IH]; cbn [filter fst]; [now destruct (String.eqb m x)|].
  destruct (String.eqb k m) eqn:E; cbn [negb].
  - rewrite IH. apply eqb_true in E. subst k. cbn [assoc]. now destruct (String.eqb m x).
  - cbn [assoc]. rewrite IH. destruct (String.eqb k x) eqn:K; [|reflexivity].
    apply eqb_true in K. subst x. now rewrite eqb_sym', E.
Qed.
Lemma loaded_unload m s x : loaded (unload m s) x = if String.eqb m x then false else loaded s x.
Proof. unfold loaded. rewrite assoc_unload. now destruct (String.eqb m x). Qed.
Lemma bnd_unload m s x n : bnd (unload m s) x n = if String.eqb m x then None else bnd s x n.
Proof. unfold bnd. rewrite assoc_unload. now destruct (String.eqb m x). Qed.
Lemma held_set m n v s : blocked s -> (m = "pyDes" -> n <> "pyDes") -> (m = sec -> n <> "secretkey") -> held s (setattr m n v s).
Proof.
  intros B H1 H2. split; [|split; rewrite loaded_setattr; auto].
  destruct B as [B1 B2 B3]. constructor.
  - rewrite bnd_setattr. destruct (String.eqb "pyDes" m && String.eqb "pyDes" n && loaded s m) eqn:E; [|exact B1].
    apply andb_prop in E. destruct E as [E _]. apply andb_prop in E. destruct E as [E1 E2]. apply eqb_true in E1, E2. now elim (H1 (eq_sym E1)).
  - rewrite bnd_setattr. destruct (String.eqb sec m && String.eqb "secretkey" n && loaded s m) eqn:E; [|exact B2].
    apply andb_prop in E. destruct E as [E _]. apply andb_prop in E. destruct E as [E1 E2]. apply eqb_true in E1, E2. now elim (H2 (eq_sym E1)).
  - rewrite !loaded_setattr. exact B3.
Qed.

(** the statements of module m that cannot be executed *)
Definition stops (m : string) (x : stmt) : bool :=
  match x with
  | SFrom p n _ => String.eqb p "pyDes" && String.eqb n "pyDes" || String.eqb p sec && String.eqb n "secretkey"
  | _ => false
  end.
Definition harmless (m : string) (x : stmt) : bool :=
  negb (String.eqb m "pyDes" && String.eqb (binds x) "pyDes")
  && (negb (String.eqb m sec && String.eqb (binds x) "secretkey") || match x with SFrom p n _ => String.eqb p sec && String.eqb n "secretkey" | _ => false end).
Lemma harmless_bind m x : harmless m x = true -> m = "pyDes" -> binds x <> "pyDes".
Proof. intros H -> E. unfold harmless in H. rewrite E in H. discriminate. Qed.
Lemma harmless_sec m x : harmless m x = true -> m = sec -> binds x = "secretkey" -> exists a, x = SFrom sec "secretkey" a.
Proof.
  intros H -> E. unfold harmless in H. rewrite E, !String.eqb_refl in H. apply andb_prop in H. destruct H as [_ H]. cbn [negb andb orb] in H.
  destruct x as [n us|n u|p top|p n a|p n a]; try discriminate.
  apply andb_prop in H. destruct H as [H1 H2]. apply eqb_true in H1, H2. subst. now exists a.
Qed.
Lemma from_bad T ext I m p n a s : bad I -> is_pkg T "pyDes" = false -> known T "pyDes" = true -> known T sec = true -> sub_name sec "secretkey" = sk -> blocked s ->
  (m = "pyDes" -> a <> "pyDes") -> (m = sec -> a = "secretkey" -> p = sec /\ n = "secretkey" /\ loaded s sk = false) ->
  match from_import T ext I m p n a s with
  | Done t => held s t /\ (p = "pyDes" -> n <> "pyDes") /\ (p = sec -> n = "secretkey" -> loaded s sk = true)
  | Fail _ t => held s t
  end.
Proof.
  intros HI Hp Kd Ks Hs B H1 H2. unfold from_import. destruct (known T p) eqn:Kp.
  - pose proof (HI p s B) as A. destruct (I p s) as [s1|e1 s1]; [|exact A]. destruct A as (R1 & A1 & A2).
    destruct (bnd s1 p n) as [v|] eqn:E.
    + assert (N1 : p = "pyDes" -> n <> "pyDes") by (intros -> ->; rewrite (bl_des _ (proj1 R1)) in E; discriminate).
      assert (N2 : p = sec -> n <> "secretkey") by (intros -> ->; rewrite (bl_key _ (proj1 R1)) in E; discriminate).
      split; [|split].
      * eapply held_trans; [exact R1|]. apply held_set; [exact (proj1 R1)|exact H1|]. intros Em Ea. destruct (H2 Em Ea) as (X & Y & _). now apply N2.
      * exact N1.
      * intros X Y. now elim (N2 X).
    + destruct (is_pkg T p && known T (sub_name p n)) eqn:P; [|exact R1].
      pose proof (HI (sub_name p n) s1 (proj1 R1)) as A. destruct (I (sub_name p n) s1) as [s2|e2 s2]; [|exact (held_trans _ _ _ R1 A)].
      destruct A as (R2 & A3 & A4). pose proof (held_trans _ _ _ R1 R2) as R.
      assert (W : p = sec -> n = "secretkey" -> loaded s sk = true).
      { intros -> ->. specialize (A4 Hs). destruct (loaded s sk) eqn:L; [reflexivity|]. rewrite (proj1 (proj2 R1) L) in A4. discriminate. }
      assert (N1 : p = "pyDes" -> n <> "pyDes") by (intros ->; rewrite Hp in P; discriminate).
      assert (G : forall v, held s (setattr m a v s2)).
      { intros v. eapply held_trans; [exact R|]. apply held_set; [exact (proj1 R)|exact H1|]. intros Em Ea.
        destruct (H2 Em Ea) as (X & Y & Z). rewrite (W X Y) in Z. discriminate. }
      destruct (bnd s2 p n) as [v|]; [|destruct (loaded s2 (sub_name p n)); [|exact R]];
        (split; [apply G|]; split; [exact N1|exact W]).
  - assert (N1 : p <> "pyDes") by congruence. assert (N2 : p <> sec) by congruence.
    destruct (ext p); [|now apply held_refl]. split; [|split; [intros X; now elim N1|intros X; now elim N2]].
    apply held_set; [exact B|exact H1|]. intros Em Ea. now destruct (H2 Em Ea) as (X & _).
Qed.
(** what is asked of the table *)
Record layout (T : table) : Prop := mkLayout {
  ly_plain : is_pkg T "pyDes" = false; ly_des : known T "pyDes" = true; ly_sec : known T sec = true;
  ly_sub : sub_name sec "secretkey" = sk;
  ly_body : forall m e x, assoc T m = Some e -> In x (m_body e) -> harmless m x = true;
  ly_parent : forall m e p n, assoc T m = Some e -> m_parent e = Some (p, n) -> (p = "pyDes" -> n <> "pyDes") /\ (p = sec -> n = "secretkey" -> m = sk);
  ly_sk : forall e, assoc T sk = Some e -> m_parent e = Some (sec, "secretkey") /\ exists a, In (SFrom "pyDes" "pyDes" a) (m_body e);
  ly_secb : forall e, assoc T sec = Some e -> exists a, In (SFrom sec "secretkey" a) (m_body e) }.
Lemma exec1_bad T ext k I m x s : layout T -> bad I -> harmless m x = true -> blocked s -> (m = sec -> loaded s sk = false) ->
  match exec1 T ext k I m x s with
  | Done t => held s t /\ (forall a, x <> SFrom "pyDes" "pyDes" a) /\ (forall a, m = sec -> x <> SFrom sec "secretkey" a)
  | Fail _ t => held s t
  end.
Proof.
  intros Ly HI Hx B Hm.
  assert (H1 := harmless_bind _ _ Hx). assert (H2 := harmless_sec _ _ Hx).
  assert (G : forall v t, held s t -> (forall a, x <> SFrom sec "secretkey" a) -> held s (setattr m (binds x) v t)).
  { intros v t R N. eapply held_trans; [exact R|]. apply held_set; [exact (proj1 R)|exact H1|]. intros Em Ea. destruct (H2 Em Ea) as [a A]. now elim (N a). }
  destruct x as [n us|n u|p top|p n a|p n a]; cbn [exec1 binds] in *.
  - destruct (resolve_all s m us); [now apply held_refl|]. split; [|split; discriminate]. apply G; [now apply held_refl|discriminate].
  - destruct (resolve s m u); [|now apply held_refl]. split; [|split; discriminate]. apply G; [now apply held_refl|discriminate].
  - destruct (known T p).
    + pose proof (HI p s B) as A. destruct (I p s) as [s1|]; [|exact A]. destruct A as (R & _). split; [|split; discriminate]. apply G; [exact R|discriminate].
    + destruct (ext p); [|now apply held_refl]. split; [|split; discriminate]. apply G; [now apply held_refl|discriminate].
  - assert (F : m = sec -> a = "secretkey" -> p = sec /\ n = "secretkey" /\ loaded s sk = false).
    { intros Em Ea. destruct (H2 Em Ea) as [a' [= -> -> _]]. split; [reflexivity|]. split; [reflexivity|now apply Hm]. }
    pose proof (from_bad T ext I m p n a s HI (ly_plain _ Ly) (ly_des _ Ly) (ly_sec _ Ly) (ly_sub _ Ly) B H1 F) as A.
    destruct (from_import T ext I m p n a s); [|exact A]. destruct A as (R & A1 & A2). split; [exact R|]. split.
    + intros a' [= -> -> _]. now apply A1.
    + intros a' Em [= -> -> _]. rewrite (Hm Em) in A2. discriminate (A2 eq_refl eq_refl).
  - assert (F : m = sec -> a = "secretkey" -> p = sec /\ n = "secretkey" /\ loaded s sk = false).
    { intros Em Ea. destruct (H2 Em Ea) as [a' A']. discriminate. }
    destruct (known T p).
    + pose proof (from_bad T ext I m p n a s HI (ly_plain _ Ly) (ly_des _ Ly) (ly_sec _ Ly) (ly_sub _ Ly) B H1 F) as A.
      destruct (from_import T ext I m p n a s) as [s1|e s1].
      * destruct A as (R & _). split; [exact R|split; discriminate].
      * destruct (k e); [|exact A]. split; [|split; discriminate]. apply G; [exact A|discriminate].
    + split; [|split; discriminate]. apply G; [now apply held_refl|discriminate].
Qed.
Lemma exec_bad T ext k I m b : layout T -> bad I -> (forall x, In x b -> harmless m x = true) -> forall s, blocked s -> (m = sec -> loaded s sk = false) ->
  match exec T ext k I m b s with
  | Done t => held s t /\ (forall a, ~ In (SFrom "pyDes" "pyDes" a) b) /\ (forall a, m = sec -> ~ In (SFrom sec "secretkey" a) b)
  | Fail _ t => held s t
  end.
Proof.
  intros Ly HI. induction b as [|x b IH]; intros Hb s B Hm; cbn [exec].
  - split; [now apply held_refl|]. split; intros; intros [].
  - pose proof (exec1_bad T ext k I m x s Ly HI (Hb x (or_introl eq_refl)) B Hm) as A.
    destruct (exec1 T ext k I m x s) as [s1|]; [|exact A]. destruct A as (R & A1 & A2).
    specialize (IH (fun y Hy => Hb y (or_intror Hy)) s1 (proj1 R) (fun Em => proj1 (proj2 R) (Hm Em))).
    destruct (exec T ext k I m b s1) as [s2|]; [|exact (held_trans _ _ _ R IH)]. destruct IH as (R2 & A3 & A4).
    split; [exact (held_trans _ _ _ R R2)|]. split.
    + intros a [H|H]; [now elim (A1 a)|now elim (A3 a)].
    + intros a Em [H|H]; [now elim (A2 a Em)|now elim (A4 a Em)].
Qed.
Lemma imp_loaded T ext k f m s t : loaded s m = true -> imp T ext k f m s = Done t -> t = s.
Proof. intros L. destruct f; cbn [imp]; [discriminate|]. rewrite L. congruence. Qed.
Lemma new_blocked q s : blocked s -> (q = sk -> loaded s sec = true) -> blocked ((q, []) :: s).
Proof.
  intros [B1 B2 B3] H. constructor.
  - rewrite bnd_new. now destruct (String.eqb q "pyDes").
  - rewrite bnd_new. now destruct (String.eqb q sec).
  - rewrite !loaded_new. destruct (String.eqb q sk) eqn:E; cbn [orb].
    + intros _. rewrite (H (eqb_true _ _ E)). apply orb_true_r.
    + intros L. rewrite (B3 L). apply orb_true_r.
Qed.
Lemma new_other q s x : q <> x -> loaded ((q, []) :: s) x = loaded s x.
Proof. intros N. rewrite loaded_new. destruct (String.eqb q x) eqn:E; [elim N; now apply eqb_true|reflexivity]. Qed.
Lemma imp_bad T ext k : layout T -> sec <> sk -> forall f, bad (imp T ext k f).
Proof.
  intros Ly Ne. induction f as [|f IH]; intros q s B; cbn [imp]; [now apply held_refl|].
  destruct (loaded s q) eqn:Lq; [split; [now apply held_refl|]; split; congruence|].
  destruct (assoc T q) as [e|] eqn:A; [|now apply held_refl].
  assert (P : match (match m_parent e with None => Done s | Some (p, _) => imp T ext k f p s end) with
              | Done s1 => held s s1 /\ (q = sk -> loaded s1 sec = true)
              | Fail _ s1 => held s s1 end).
  { destruct (m_parent e) as [[p n]|] eqn:Pe.
    - pose proof (IH p s B) as H. destruct (imp T ext k f p s) as [s1|] eqn:E; [|exact H]. destruct H as (R & H1 & _). split; [exact R|].
      intros ->. destruct (ly_sk _ Ly _ A) as [Q _]. assert (Ep : p = sec) by congruence. subst p. specialize (H1 eq_refl).
      now rewrite (imp_loaded _ _ _ _ _ _ _ H1 E).
    - split; [now apply held_refl|]. intros ->. destruct (ly_sk _ Ly _ A) as [Q _]. congruence. }
  destruct (match m_parent e with None => Done s | Some (p, _) => imp T ext k f p s end) as [s1|e1 s1]; [|exact P].
  destruct P as (R & P). destruct R as (B1 & R2 & R3).
  destruct (loaded s1 q) eqn:L1.
  - split; [now split|]. split; intros ->; exfalso.
    + rewrite (R3 Lq) in L1. discriminate.
    + rewrite (R2 Lq) in L1. discriminate.
  - assert (Hsec : q = sec -> loaded ((q, []) :: s1) sk = false).
    { intros ->. rewrite (new_other _ _ _ Ne). destruct (loaded s1 sk) eqn:K; [|reflexivity]. rewrite (bl_parent _ B1 K) in L1. discriminate. }
    pose proof (exec_bad T ext k _ q (m_body e) Ly IH (fun x => ly_body _ Ly q e x A) _ (new_blocked q s1 B1 P) Hsec) as X.
    destruct (exec T ext k (imp T ext k f) q (m_body e) ((q, []) :: s1)) as [s2|e2 s2].
    + destruct X as (X & X1 & X2).
      assert (N1 : q <> sk) by (intros ->; destruct (ly_sk _ Ly _ A) as (_ & a & I); exact (X1 a I)).
      assert (N2 : q <> sec) by (intros ->; destruct (ly_secb _ Ly _ A) as (a & I); exact (X2 a eq_refl I)).
      assert (R : held s s2).
      { destruct X as (B2 & Y1 & Y2). rewrite (new_other _ _ _ N1) in Y1. rewrite (new_other _ _ _ N2) in Y2. split; [exact B2|]. split; auto. }
      split; [|split; intros Y; [now elim N2|now elim N1]].
      destruct (m_parent e) as [[p n]|] eqn:Pe; [|exact R]. destruct (ly_parent _ Ly _ _ _ _ A Pe) as [Q1 Q2].
      eapply held_trans; [exact R|]. apply held_set; [exact (proj1 R)|exact Q1|]. intros Y Z. now elim N1; apply Q2.
    + destruct X as (B2 & Y1 & Y2). split; [|split].
      * constructor.
        -- rewrite bnd_unload, (bl_des _ B2). now destruct (String.eqb q "pyDes").
        -- rewrite bnd_unload, (bl_key _ B2). now destruct (String.eqb q sec).
        -- rewrite !loaded_unload. destruct (String.eqb q sk) eqn:E; [discriminate|]. intros K.
           destruct (String.eqb q sec) eqn:E2; [|exact (bl_parent _ B2 K)]. apply eqb_true in E2. rewrite (Y1 (Hsec E2)) in K. discriminate.
      * intros K. rewrite loaded_unload. destruct (String.eqb q sk) eqn:E; [reflexivity|]. apply Y1. rewrite loaded_new, E. exact (R2 K).
      * intros K. rewrite loaded_unload. destruct (String.eqb q sec) eqn:E; [reflexivity|]. apply Y2. rewrite loaded_new, E. exact (R3 K).
Qed.
Lemma try_bad T ext l : layout T -> sec <> sk -> forall f s, blocked s -> held s (try_all T ext f l s).
Proof.
  intros Ly Ne f. induction l as [|m l IH]; intros s B; cbn [try_all]; [now apply held_refl|].
  pose proof (imp_bad T ext is_import_error Ly Ne f m s B) as A. destruct (imp T ext is_import_error f m s) as [s1|e s1].
  - destruct A as (R & _). exact (held_trans _ _ _ R (IH _ (proj1 R))).
  - exact (held_trans _ _ _ A (IH _ (proj1 A))).
Qed.
Definition body_okb (T : table) : bool := forallb (fun me => forallb (harmless (fst me)) (m_body (snd me))
   && match m_parent (snd me) with
      | Some (p, n) => negb (String.eqb p "pyDes" && String.eqb n "pyDes") && (negb (String.eqb p sec && String.eqb n "secretkey") || String.eqb (fst me) sk)
      | None => true end) T.
Lemma body_ok_gen T : body_okb T = true -> forall m e, assoc T m = Some e -> (forall x, In x (m_body e) -> harmless m x = true)
  /\ (forall p n, m_parent e = Some (p, n) -> (p = "pyDes" -> n <> "pyDes") /\ (p = sec -> n = "secretkey" -> m = sk)).
Proof.
  intros H m e A. unfold body_okb in H. rewrite forallb_forall in H. specialize (H _ (assoc_In _ _ _ A)). cbn [fst snd] in H.
  apply andb_prop in H. destruct H as [H1 H2]. rewrite forallb_forall in H1. split; [exact H1|]. intros p n E. rewrite E in H2.
  apply andb_prop in H2. destruct H2 as [H2 H3]. split.
  - intros -> ->. discriminate.
  - intros -> ->. rewrite !String.eqb_refl in H3. now apply eqb_true.
Qed.
Definition eq_stmt_from (p n : string) (x : stmt) : bool := match x with SFrom p' n' _ => String.eqb p' p && String.eqb n' n | _ => false end.
Lemma from_In p n l : existsb (eq_stmt_from p n) l = true -> exists a, In (SFrom p n a) l.
Proof.
  rewrite existsb_exists. intros (x & I & E). destruct x as [ | | |p' n' a| ]; try discriminate. apply andb_prop in E. destruct E as [E1 E2].
  apply eqb_true in E1, E2. subst. now exists a.
Qed.
Lemma layout_installed : layout lib_installed.
Proof.
  assert (H : body_okb lib_installed = true) by (vm_compute; reflexivity).
  assert (Hk : match assoc lib_installed sk with Some e => match m_parent e with Some (p, n) => String.eqb p sec && String.eqb n "secretkey" | None => false end
                 && existsb (eq_stmt_from "pyDes" "pyDes") (m_body e) | None => false end = true) by (vm_compute; reflexivity).
  assert (Hs : match assoc lib_installed sec with Some e => existsb (eq_stmt_from sec "secretkey") (m_body e) | None => false end = true) by (vm_compute; reflexivity).
  assert (H1 : is_pkg lib_installed "pyDes" = false) by (vm_compute; reflexivity).
  assert (H2 : known lib_installed "pyDes" = true) by (vm_compute; reflexivity).
  assert (H3 : known lib_installed sec = true) by (vm_compute; reflexivity).
  revert H Hk Hs H1 H2 H3. generalize lib_installed. intros T H Hk Hs H1 H2 H3. constructor; try assumption.
  - reflexivity.
  - intros m e x A. exact (proj1 (body_ok_gen T H m e A) x).
  - intros m e p n A. exact (proj2 (body_ok_gen T H m e A) p n).
  - intros e A. rewrite A in Hk. apply andb_prop in Hk. destruct Hk as [K1 K2]. split; [|now apply from_In].
    destruct (m_parent e) as [[p n]|]; [|discriminate]. apply andb_prop in K1. destruct K1 as [K1 K3]. apply eqb_true in K1, K3. now subst.
  - intros e A. rewrite A in Hs. now apply from_In.
Qed.
Lemma installed_gen T ext f f' l t : layout T -> sec <> sk -> imp T ext is_import_error f sec (try_all T ext f' l []) <> Done t.
Proof.
  intros Ly Ne E. assert (B : blocked []) by (constructor; [reflexivity|reflexivity|discriminate]).
  destruct (try_bad T ext l Ly Ne f' [] B) as (B' & _ & N). specialize (N eq_refl).
  pose proof (imp_bad T ext is_import_error Ly Ne f sec _ B') as A. rewrite E in A. destruct A as (_ & A & _). specialize (A eq_refl). congruence.
Qed.

Lemma C127_installed_refuted_pf : forall c fuel fuel' l t,
  imp lib_installed (ext_of c) is_import_error fuel "pythoncard.security" (try_all lib_installed (ext_of c) fuel' l []) <> Done t.
Proof. intros c fuel fuel' l t. apply (installed_gen lib_installed); [apply layout_installed|discriminate]. Qed.

Lemma import_one T ext f m s t : import_all T ext f [m] s = Done t -> imp T ext is_import_error f m s = Done t.
Proof. cbn [import_all]. destruct (imp T ext is_import_error f m s); congruence. Qed.

Lemma C127_full_refuted_pf : ~ C127_full.
Proof.
  intros H. destruct (H lib_installed (or_intror eq_refl) false 40%nat ["pythoncard.security"] ["pythoncard.security"]) as (t1 & t2 & E & _).
  - lia.
  - intros m [<-|[]]. assert (X : existsb (String.eqb "pythoncard.security") (map fst lib_installed) = true) by (vm_compute; reflexivity).
    apply existsb_exists in X. destruct X as (y & I & Y). apply eqb_true in Y. now subst.
  - intros m. reflexivity.
  - exact (C127_installed_refuted_pf false 40 0 [] t1 (import_one _ _ _ _ _ _ E)).
Qed.

(** ** The names in the functions *)
(** the name n of module m is bound whenever m is loaded *)
Definition surely (m n : string) : bool :=
  mem n (own m) || existsb (fun q => match parent q with Some (p, k) => String.eqb p m && String.eqb k n | None => false end) (deps m).
Lemma surely_bnd c t m n : closed c t -> loaded t m = true -> surely m n = true -> exists v, bnd t m n = Some v.
Proof.
  intros K L H. unfold surely in H. apply orb_prop in H. destruct H as [H|H].
  - apply (cl_own _ _ K); [exact L|now apply mem_In].
  - apply existsb_exists in H. destruct H as (q & I & H). destruct (parent q) as [[p k]|] eqn:P; [|discriminate].
    apply andb_prop in H. destruct H as [H1 H2]. apply eqb_true in H1, H2. subst p k.
    exact (cl_child _ _ K q m n (cl_dep _ _ K _ _ L I) P).
Qed.
Fixpoint attrs_stable (F : istate) (v : val) (l : list string) : bool :=
  match l with
  | [] => true
  | a :: l' =>
      match v with
      | VMod q => match bnd F q a with Some w => surely q a && attrs_stable F w l' | None => true end
      | VNone => true
      | _ => attrs_stable F VSome l'
      end
  end.
Definition use_stable (F : istate) (m : string) (u : use) : bool :=
  match bnd F m (fst u) with
  | Some v => surely m (fst u) && attrs_stable F v (snd u)
  | None => attrs_stable F VSome (snd u)
  end.
Lemma bnd_full_gen c (F t : istate) m n : (forall m n v, bnd t m n = Some v -> bnd F m n = Some v) -> closed c t -> loaded t m = true ->
  (forall v, bnd F m n = Some v -> surely m n = true) -> bnd t m n = bnd F m n.
Proof.
  intros C K L H. destruct (bnd F m n) as [v|] eqn:E.
  - destruct (surely_bnd c t m n K L (H v eq_refl)) as [w W]. rewrite W. pose proof (C _ _ _ W). congruence.
  - destruct (bnd t m n) as [w|] eqn:W; [|reflexivity]. pose proof (C _ _ _ W). congruence.
Qed.
Lemma attrs_full_gen c (F t : istate) : (forall m n v, bnd t m n = Some v -> bnd F m n = Some v) -> closed c t ->
  forall l v, attrs_stable F v l = true -> (forall q, v = VMod q -> loaded t q = true) -> attrs t v l = attrs F v l.
Proof.
  intros C K. induction l as [|a l IH]; intros v H Hv; cbn [attrs attrs_stable] in *; [reflexivity|].
  destruct v as [q|m n|p n| |]; try (apply IH; [exact H|discriminate]); [|reflexivity].
  rewrite (bnd_full_gen c F t q a C K (Hv q eq_refl)).
  - destruct (bnd F q a) as [w|] eqn:E; [|reflexivity]. apply andb_prop in H. destruct H as [H1 H2]. apply IH; [exact H2|].
    intros r ->. assert (X : bnd t q a = Some (VMod r)).
    { rewrite (bnd_full_gen c F t q a C K (Hv q eq_refl)); [exact E|]. intros v _. exact H1. }
    exact (cl_mod _ _ K _ _ _ X).
  - intros v E. rewrite E in H. now apply andb_prop in H.
Qed.
Lemma resolve_full_gen c (F t : istate) m u : (forall m n v, bnd t m n = Some v -> bnd F m n = Some v) -> closed c t -> loaded t m = true ->
  use_stable F m u = true -> resolve t m u = resolve F m u.
Proof.
  intros C K L H. unfold resolve, use_stable in *.
  assert (E : bnd t m (fst u) = bnd F m (fst u)).
  { apply (bnd_full_gen c F t m (fst u) C K L). intros v V. rewrite V in H. now apply andb_prop in H. }
  rewrite E. destruct (bnd F m (fst u)) as [v|].
  - apply andb_prop in H. destruct H as [_ H]. apply (attrs_full_gen c F t C K); [exact H|]. intros q ->. exact (cl_mod _ _ K _ _ _ E).
  - destruct (builtin (fst u)); [|reflexivity]. apply (attrs_full_gen c F t C K); [exact H|discriminate].
Qed.
Fixpoint strs_eqb (a b : list string) : bool :=
  match a, b with [], [] => true | x :: a', y :: b' => String.eqb x y && strs_eqb a' b' | _, _ => false end.
Lemma strs_eqb_eq a : forall b, strs_eqb a b = true <-> a = b.
Proof.
  induction a as [|x a IH]; intros [|y b]; cbn [strs_eqb]; try (split; [discriminate|discriminate]); [now split|].
  rewrite andb_true_iff, IH. split.
  - intros [E ->]. apply eqb_true in E. now subst.
  - intros [= -> ->]. split; [apply String.eqb_refl|reflexivity].
Qed.
Definition ref_eqb (a b : string * string * use) : bool :=
  String.eqb (fst (fst a)) (fst (fst b)) && String.eqb (snd (fst a)) (snd (fst b)) && String.eqb (fst (snd a)) (fst (snd b)) && strs_eqb (snd (snd a)) (snd (snd b)).
Lemma ref_eqb_eq a b : ref_eqb a b = true <-> a = b.
Proof.
  destruct a as [[m f] [n l]], b as [[m' f'] [n' l']]. unfold ref_eqb. cbn [fst snd]. rewrite !andb_true_iff, strs_eqb_eq. split.
  - intros [[[A B] C] D]. apply eqb_true in A, B, C. now subst.
  - intros [= -> -> -> ->]. rewrite !String.eqb_refl. auto.
Qed.
Definition listed (l : list (string * string * use)) (x : string * string * use) : bool := existsb (ref_eqb x) l.
Lemma listed_In l x : listed l x = true <-> In x l.
Proof.
  unfold listed. rewrite existsb_exists. split.
  - intros (y & I & E). apply ref_eqb_eq in E. now subst.
  - intros I. exists x. split; [exact I|now apply ref_eqb_eq].
Qed.
Definition ref_okb (c : bool) (F : istate) (m f : string) (u : use) : bool :=
  use_stable F m u &&
  match resolve F m u with
  | inl _ => negb (listed undefined_names (m, f, u)) && negb (negb c && listed none_without_pycrypto (m, f, u))
  | inr NameErr => listed undefined_names (m, f, u) && negb (negb c && listed none_without_pycrypto (m, f, u))
  | inr AttrErr => negb (listed undefined_names (m, f, u)) && (negb c && listed none_without_pycrypto (m, f, u))
  | inr _ => false
  end.
Definition refs_okb (c : bool) (F : istate) : bool := forallb (fun r => forallb (ref_okb c F (fst (fst (fst r))) (snd (fst (fst r)))) (snd r)) fn_refs.
Transparent full.
Lemma refs_ok c : refs_okb c (full c) = true.
Proof. destruct c; vm_compute; reflexivity. Qed.
Opaque full.
Lemma ref_ok_gen c F m f ln us u : refs_okb c F = true -> In (m, f, ln, us) fn_refs -> In u us -> ref_okb c F m f u = true.
Proof. intros H I J. unfold refs_okb in H. rewrite forallb_forall in H. specialize (H _ I). cbn [fst snd] in H. rewrite forallb_forall in H. exact (H _ J). Qed.
Lemma ref_exact_gen c (F t : istate) m f ln us u e : refs_okb c F = true -> (forall m n v, bnd t m n = Some v -> bnd F m n = Some v) -> closed c t ->
  In (m, f, ln, us) fn_refs -> In u us -> loaded t m = true ->
  (resolve t m u = inr e <-> (e = NameErr /\ In (m, f, u) undefined_names) \/ (e = AttrErr /\ c = false /\ In (m, f, u) none_without_pycrypto)).
Proof.
  intros R C K I J L. pose proof (ref_ok_gen c F m f ln us u R I J) as H. unfold ref_okb in H. apply andb_prop in H. destruct H as [S H].
  rewrite (resolve_full_gen c F t m u C K L S), <- !listed_In.
  destruct (resolve F m u) as [v|x].
  - apply andb_prop in H. destruct H as [H1 H2]. split; [discriminate|]. intros [[_ X]|(_ & -> & X)].
    + rewrite X in H1. discriminate.
    + rewrite X in H2. discriminate.
  - destruct x; try discriminate; apply andb_prop in H; destruct H as [H1 H2]; split.
    + intros [= <-]. left. now split.
    + intros [[-> _]|(_ & -> & X)]; [reflexivity|]. rewrite X in H2. discriminate.
    + intros [= <-]. right. apply andb_prop in H2. destruct H2 as [H2 H3]. split; [reflexivity|]. split; [now destruct c|exact H3].
    + intros [[_ X]|(-> & _)]; [|reflexivity]. rewrite X in H1. discriminate.
Qed.

Lemma C128_exact_partial_pf : forall c fuel l t m f ln us u e, (40 <= fuel)%nat -> of_library l -> program c fuel l = Done t ->
  In (m, f, ln, us) fn_refs -> In u us -> loaded t m = true ->
  (resolve t m u = inr e <-> (e = NameErr /\ In (m, f, u) undefined_names) \/ (e = AttrErr /\ c = false /\ In (m, f, u) none_without_pycrypto)).
Proof.
  intros c fuel l t m f ln us u e Hf Hl E. destruct (program_ok c fuel l Hf Hl) as (t' & E' & K & _). assert (t' = t) by congruence. subst t'.
  exact (ref_exact_gen c (full c) t m f ln us u e (refs_ok c) (cl_cons _ _ K) K).
Qed.

Definition in_refs (m f : string) (u : use) : bool :=
  existsb (fun r => String.eqb (fst (fst (fst r))) m && String.eqb (snd (fst (fst r))) f && existsb (fun w => ref_eqb (m, f, w) (m, f, u)) (snd r)) fn_refs.
Lemma in_refs_ok m f u : in_refs m f u = true -> exists ln us, In (m, f, ln, us) fn_refs /\ In u us.
Proof.
  unfold in_refs. rewrite existsb_exists. intros ([[[m' f'] ln] us] & I & H). cbn [fst snd] in H.
  apply andb_prop in H. destruct H as [H H3]. apply andb_prop in H. destruct H as [H1 H2]. apply eqb_true in H1, H2. subst m' f'.
  apply existsb_exists in H3. destruct H3 as (w & J & W). apply ref_eqb_eq in W. exists ln, us. split; [exact I|]. congruence.
Qed.
Lemma listed_refs : forallb (fun r => in_refs (fst (fst r)) (snd (fst r)) (snd r) && mem (fst (fst r)) lib_names) (undefined_names ++ none_without_pycrypto) = true.
Proof. vm_compute. reflexivity. Qed.
Lemma listed_ref m f u : In (m, f, u) (undefined_names ++ none_without_pycrypto) -> (exists ln us, In (m, f, ln, us) fn_refs /\ In u us) /\ In m lib_names.
Proof.
  intros I. pose proof listed_refs as H. rewrite forallb_forall in H. specialize (H _ I). cbn [fst snd] in H.
  apply andb_prop in H. destruct H as [H1 H2]. split; [now apply in_refs_ok|now apply mem_In].
Qed.

Lemma C128_refuted_pf : forall m f u, In (m, f, u) undefined_names ->
  (exists ln us, In (m, f, ln, us) fn_refs /\ In u us) /\
  forall c fuel l t, (40 <= fuel)%nat -> of_library l -> In m l -> program c fuel l = Done t -> resolve t m u = inr NameErr.
Proof.
  intros m f u I. destruct (listed_ref m f u) as [(ln & us & J & W) _]; [apply in_or_app; now left|]. split; [now exists ln, us|].
  intros c fuel l t Hf Hl Hm E. destruct (program_ok c fuel l Hf Hl) as (t' & E' & _ & D). assert (t' = t) by congruence. subst t'.
  apply (C128_exact_partial_pf c fuel l t m f ln us u NameErr Hf Hl E J W (D _ Hm)). left. now split.
Qed.

Lemma full_128_gen m f u fuel : (40 <= fuel)%nat -> In m lib_names -> In (m, f, u) undefined_names -> C128_full -> False.
Proof.
  intros Hf Im I H. destruct (C128_refuted_pf m f u I) as [(ln & us & J & W) R].
  assert (Hl : of_library [m]) by (intros q [<-|[]]; exact Im).
  destruct (program_ok true fuel [m] Hf Hl) as (t & E & _ & D). specialize (R true fuel [m] t Hf Hl (or_introl eq_refl) E).
  destruct (H true fuel [m] t Hf Hl E m f ln us u J W (D _ (or_introl eq_refl))) as [v V]. congruence.
Qed.

Lemma C128_full_refuted_pf : ~ C128_full.
Proof.
  assert (I : In ("pythoncard.framework.aid", "AID.getPartialBytes", ("aidOfset", [])) undefined_names) by (right; now left).
  assert (L : In "pythoncard.framework.aid" lib_names).
  { exact (proj2 (listed_ref _ _ _ (in_or_app undefined_names none_without_pycrypto _ (or_introl I)))). }
  assert (Hf : (40 <= 40)%nat) by lia.
  exact (full_128_gen _ _ _ _ Hf L I).
Qed.

(** ** The classes of the API *)
Definition jc_okb (c : bool) (F : istate) (p n : string) : bool :=
  if existsb (fun x => String.eqb (fst x) p && String.eqb (snd x) n) jc_missing then
    if known lib p then mem p lib_names && match bnd F p n with None => true | Some _ => false end && negb (is_pkg lib p && known lib (sub_name p n))
    else negb (ext_of c p)
  else known lib p && mem p lib_names && (mem n (own p) || is_pkg lib p && mem (sub_name p n) lib_names && known lib (sub_name p n)).
Definition all_jc_okb (c : bool) (F : istate) : bool := forallb (fun e => forallb (jc_okb c F (fst e)) (snd e)) jc_classes.
Transparent full.
Lemma all_jc_ok c : all_jc_okb c (full c) = true.
Proof. destruct c; vm_compute; reflexivity. Qed.
Opaque full.
Lemma missing_In p n : existsb (fun x => String.eqb (fst x) p && String.eqb (snd x) n) jc_missing = true <-> In (p, n) jc_missing.
Proof.
  rewrite existsb_exists. split.
  - intros ([p' n'] & I & E). cbn [fst snd] in E. apply andb_prop in E. destruct E as [E1 E2]. apply eqb_true in E1, E2. now subst.
  - intros I. exists (p, n). split; [exact I|]. cbn [fst snd]. now rewrite !String.eqb_refl.
Qed.
Lemma from_ok_gen c (F : istate) f fuel p n t : ready c f -> (f <= fuel)%nat -> closed c t -> (forall u, closed c u -> forall m n v, bnd u m n = Some v -> bnd F m n = Some v) ->
  jc_okb c F p n = true ->
  match from_import lib (ext_of c) (imp lib (ext_of c) is_import_error fuel) "__main__" p n n t with
  | Done _ => ~ In (p, n) jc_missing
  | Fail e _ => e = ImportErr /\ In (p, n) jc_missing
  end.
Proof.
  intros R Hf K C H. unfold jc_okb in H. pose proof (missing_In p n) as M.
  destruct (existsb (fun x => String.eqb (fst x) p && String.eqb (snd x) n) jc_missing).
  - assert (Im : In (p, n) jc_missing) by now apply M. unfold from_import. destruct (known lib p).
    + apply andb_prop in H. destruct H as [H H3]. apply andb_prop in H. destruct H as [H1 H2]. apply mem_In in H1.
      destruct (step_ok c f fuel p t R Hf H1 K) as (t1 & -> & _ & K1 & _).
      destruct (bnd t1 p n) as [v|] eqn:E; [rewrite (C _ K1 _ _ _ E) in H2; discriminate|].
      destruct (is_pkg lib p && known lib (sub_name p n)); [discriminate|]. now split.
    + destruct (ext_of c p); [discriminate|]. now split.
  - assert (Im : ~ In (p, n) jc_missing) by (intros X; apply M in X; discriminate). unfold from_import.
    apply andb_prop in H. destruct H as [H H3]. apply andb_prop in H. destruct H as [H1 H2]. rewrite H1. apply mem_In in H2.
    destruct (step_ok c f fuel p t R Hf H2 K) as (t1 & -> & [J _] & K1 & L1 & _).
    destruct (bnd t1 p n) as [v|] eqn:E; [exact Im|].
    apply orb_prop in H3. destruct H3 as [H3|H3].
    + destruct (cl_own _ _ K1 p n) as [v V]; [rewrite J, L1; reflexivity|now apply mem_In|congruence].
    + apply andb_prop in H3. destruct H3 as [H3 H4]. apply andb_prop in H3. destruct H3 as [H5 H3]. rewrite H5, H4. cbn [andb]. apply mem_In in H3.
      destruct (step_ok c f fuel _ t1 R Hf H3 K1) as (t2 & -> & [J2 _] & K2 & L2 & _).
      destruct (bnd t2 p n); [exact Im|]. rewrite J2, L2. exact Im.
Qed.

Lemma C129_exact_partial_pf : forall c fuel l p ns n, (40 <= fuel)%nat -> of_library l -> In (p, ns) jc_classes -> In n ns ->
  match program_from c fuel l p n with
  | Done _ => ~ In (p, n) jc_missing
  | Fail e _ => e = ImportErr /\ In (p, n) jc_missing
  end.
Proof.
  intros c fuel l p ns n Hf Hl I J. unfold program_from. destruct (program_ok c fuel l Hf Hl) as (t & -> & K & _).
  pose proof (all_jc_ok c) as H. unfold all_jc_okb in H. rewrite forallb_forall in H. specialize (H _ I). cbn [fst snd] in H. rewrite forallb_forall in H. specialize (H _ J).
  exact (from_ok_gen c (full c) 40 fuel p n t (ready_40 c) Hf K (fun u Ku => cl_cons _ _ Ku) H).
Qed.

Lemma C129_full_refuted_pf : ~ C129_full.
Proof.
  intros H. assert (I : In ("pythoncardx.framework.math", ["BCDUtil"; "BigNumber"; "ParityBit"]) jc_classes) by (cbn; tauto).
  assert (Hl : of_library []) by (intros m []).
  assert (Hf : (40 <= 40)%nat) by lia.
  pose proof (C129_exact_partial_pf true 40%nat [] _ _ "BCDUtil" Hf Hl I (or_introl eq_refl)) as X.
  destruct (H true 40%nat [] _ _ "BCDUtil" Hf Hl I (or_introl eq_refl)) as [t E].
  revert E X. generalize (program_from true 40 [] "pythoncardx.framework.math" "BCDUtil"). intros r -> X. apply X. cbn; tauto.
Qed.
