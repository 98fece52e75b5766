(** * Proofs of C130 and C131: methods and attributes: proofs *)
From Verif Require Import Py S_Base M_lookup M_import M_imptab S_Import M_classes S_Classes LP_imports.
From Coq Require Import String Lia.
Open Scope string_scope.

(** ** What is loaded with a module *)
Fixpoint reach (n : nat) (m q : string) : bool :=
  if String.eqb m q then true else
  match n with O => false | S k => if mem q (deps m) then true else existsb (fun d => reach k d q) (deps m) end.
Lemma reach_loaded c t : closed c t -> forall n m q, loaded t m = true -> reach n m q = true -> loaded t q = true.
Proof.
  intros K. induction n as [|n IH]; intros m q L; cbn [reach].
  - destruct (String.eqb m q) eqn:E; [apply eqb_true in E; now subst|discriminate].
  - destruct (String.eqb m q) eqn:E; [apply eqb_true in E; now subst|]. destruct (mem q (deps m)) eqn:D.
    + intros _. apply mem_In in D. exact (cl_dep _ _ K _ _ L D).
    + intros H. apply existsb_exists in H. destruct H as (d & I & H). exact (IH d q (cl_dep _ _ K _ _ L I) H).
Qed.
Definition near (m q : string) : bool := reach 2 m q.
Lemma near_loaded c t m q : closed c t -> loaded t m = true -> near m q = true -> loaded t q = true.
Proof. intros K L H. exact (reach_loaded c t K 2 m q L H). Qed.
Definition agrees (F t : istate) : Prop := forall m n v, bnd t m n = Some v -> bnd F m n = Some v.

Fixpoint mro_stable (F : istate) (fuel : nat) (m c : string) : bool :=
  match fuel with
  | O => true
  | S f =>
      match class_of m c with
      | Some (Some u, _) => use_stable F m u && match resolve F m u with inl (VDef m' c') => near m m' && mro_stable F f m' c' | _ => true end
      | _ => true
      end
  end.
Lemma mro_full c F t : agrees F t -> closed c t -> forall f m k, loaded t m = true -> mro_stable F f m k = true -> mro t f m k = mro F f m k.
Proof.
  intros A K. induction f as [|f IH]; intros m k L H; cbn [mro mro_stable] in *; [reflexivity|].
  destruct (class_of m k) as [[[u|] d]|]; [|reflexivity|reflexivity]. apply andb_prop in H. destruct H as [S H].
  rewrite (resolve_full_gen c F t m u A K L S). destruct (resolve F m u) as [[q|m' c'|p n| |]|e]; try reflexivity.
  apply andb_prop in H. destruct H as [N H]. now rewrite (IH m' c' (near_loaded c t m m' K L N) H).
Qed.
Lemma self_full c F t a : agrees F t -> closed c t -> forall f m k, loaded t m = true -> mro_stable F f m k = true -> on_self t f m k a = on_self F f m k a.
Proof.
  intros A K. induction f as [|f IH]; intros m k L H; cbn [on_self mro_stable] in *; [reflexivity|].
  destruct (class_of m k) as [[[u|] d]|]; [|reflexivity|reflexivity]. destruct (private a); [reflexivity|]. apply andb_prop in H. destruct H as [S H].
  rewrite (resolve_full_gen c F t m u A K L S). destruct (resolve F m u) as [[q|m' c'|p n| |]|e]; try reflexivity.
  apply andb_prop in H. destruct H as [N H]. now rewrite (IH m' c' (near_loaded c t m m' K L N) H).
Qed.

(** ** Calls *)
Definition exn_same (a b : exn) : bool := match a, b with AttributeError, AttributeError => true | TypeError, TypeError => true | _, _ => false end.
Lemma exn_same_eq a b : exn_same a b = true -> a = b.
Proof. destruct a, b; cbn; congruence. Qed.
Definition key_eqb (m k n : string) (a : nat) (e : string * string * string * nat * exn) : bool :=
  let '(m', k', n', a', _) := e in String.eqb m m' && String.eqb k k' && String.eqb n n' && Nat.eqb a a'.
Definition hits (L : list (string * string * string * nat * exn)) (m k n : string) (a : nat) : list exn := map snd (filter (key_eqb m k n a) L).
Lemma hits_In L m k n a e : In e (hits L m k n a) <-> In (m, k, n, a, e) L.
Proof.
  unfold hits. rewrite in_map_iff. split.
  - intros ([[[[m' k'] n'] a'] e'] & E & I). cbn [snd] in E. subst e'. apply filter_In in I. destruct I as [I H]. cbn [key_eqb] in H.
    apply andb_prop in H. destruct H as [H H4]. apply andb_prop in H. destruct H as [H H3]. apply andb_prop in H. destruct H as [H1 H2].
    apply eqb_true in H1, H2, H3. apply Nat.eqb_eq in H4. now subst.
  - intros I. exists (m, k, n, a, e). split; [reflexivity|]. apply filter_In. split; [exact I|]. cbn [key_eqb]. now rewrite !String.eqb_refl, Nat.eqb_refl.
Qed.
Definition outcome_okb (r : res string) (h : list exn) : bool :=
  match r, h with Ok _, [] => true | Err e, [e'] => exn_same e e' | _, _ => false end.
Lemma outcome_ok r L m k n a e : outcome_okb r (hits L m k n a) = true -> (r = Err e <-> In (m, k, n, a, e) L).
Proof.
  intros H. rewrite <- hits_In. destruct r as [v|e0], (hits L m k n a) as [|e1 [|e2 l]]; try discriminate; cbn [outcome_okb] in H.
  - split; [discriminate|intros []].
  - apply exn_same_eq in H. subst e1. split; [intros [= ->]; now left|intros [->|[]]; reflexivity].
Qed.
Definition object_okb (F : istate) (m k n : string) (a : nat) : bool :=
  mro_stable F depth m k && outcome_okb (on_object F m k n a) (hits objects_broken m k n a).
Definition objects_okb (F : istate) : bool :=
  forallb (fun e => let '(_, _, os, ms) := e in forallb (fun o => forallb (fun x => object_okb F (fst o) (snd o) (fst x) (snd x)) ms) os) jc_objects.
Definition class_stable (F : istate) (p cl n : string) : bool :=
  surely p cl &&
  match bnd F p cl with
  | Some (VDef m k) => near p m && mro_stable F depth m k
  | Some (VMod q) => match bnd F q n with Some _ => surely q n | None => true end
  | _ => true
  end.
Lemma class_bnd c F t p cl : agrees F t -> closed c t -> loaded t p = true -> surely p cl = true -> bnd t p cl = bnd F p cl.
Proof. intros A K L S. apply (bnd_full_gen c F t p cl A K L). intros _ _. exact S. Qed.
Lemma on_class_full c F t p cl n a : agrees F t -> closed c t -> loaded t p = true -> class_stable F p cl n = true -> on_class t p cl n a = on_class F p cl n a.
Proof.
  intros A K L H. unfold class_stable in H. apply andb_prop in H. destruct H as [S H]. unfold on_class.
  pose proof (class_bnd c F t p cl A K L S) as E. rewrite E. destruct (bnd F p cl) as [[q|m k|x y| |]|]; try reflexivity.
  - assert (Lq : loaded t q = true) by exact (cl_mod _ _ K _ _ _ E).
    rewrite (bnd_full_gen c F t q n A K Lq); [reflexivity|]. intros v V. now rewrite V in H.
  - apply andb_prop in H. destruct H as [N H]. now rewrite (mro_full c F t A K depth m k (near_loaded c t p m K L N) H).
Qed.
Lemma construct_full c F t p cl a : agrees F t -> closed c t -> loaded t p = true -> class_stable F p cl "__init__" = true -> construct t p cl a = construct F p cl a.
Proof.
  intros A K L H. unfold class_stable in H. apply andb_prop in H. destruct H as [S H]. unfold construct.
  pose proof (class_bnd c F t p cl A K L S) as E. rewrite E. destruct (bnd F p cl) as [[q|m k|x y| |]|]; try reflexivity.
  apply andb_prop in H. destruct H as [N H]. now rewrite (mro_full c F t A K depth m k (near_loaded c t p m K L N) H).
Qed.
Definition statics_okb (F : istate) : bool :=
  forallb (fun e => let '(p, cl, ms) := e in
    forallb (fun x => class_stable F p cl (fst x) && outcome_okb (on_class F p cl (fst x) (snd x)) (hits statics_broken p cl (fst x) (snd x))) ms) jc_statics.
Definition ctors_okb (F : istate) : bool :=
  forallb (fun e => let '(p, cl, ks) := e in forallb (fun a => class_stable F p cl "__init__" && match construct F p cl a with Ok _ => true | Err _ => false end) ks) jc_ctors.
Transparent full.
Lemma objects_ok c : objects_okb (full c) = true.
Proof. destruct c; vm_compute; reflexivity. Qed.
Lemma statics_ok c : statics_okb (full c) = true.
Proof. destruct c; vm_compute; reflexivity. Qed.
Lemma ctors_ok c : ctors_okb (full c) = true.
Proof. destruct c; vm_compute; reflexivity. Qed.
Opaque full.
Lemma objects_gen c F t p cl os ms m k n a e : objects_okb F = true -> agrees F t -> closed c t ->
  In (p, cl, os, ms) jc_objects -> In (m, k) os -> In (n, a) ms -> loaded t m = true -> (on_object t m k n a = Err e <-> In (m, k, n, a, e) objects_broken).
Proof.
  intros H A K I1 I2 I3 L. unfold objects_okb in H. rewrite forallb_forall in H. specialize (H _ I1). cbn beta iota in H.
  rewrite forallb_forall in H. specialize (H _ I2). rewrite forallb_forall in H. specialize (H _ I3). cbn [fst snd] in H.
  unfold object_okb in H. apply andb_prop in H. destruct H as [S H].
  assert (E : on_object t m k n a = on_object F m k n a) by (unfold on_object; now rewrite (mro_full c F t A K depth m k L S)).
  rewrite E. exact (outcome_ok _ _ _ _ _ _ e H).
Qed.
Lemma statics_gen c F t p cl ms n a e : statics_okb F = true -> agrees F t -> closed c t ->
  In (p, cl, ms) jc_statics -> In (n, a) ms -> loaded t p = true -> (on_class t p cl n a = Err e <-> In (p, cl, n, a, e) statics_broken).
Proof.
  intros H A K I1 I2 L. unfold statics_okb in H. rewrite forallb_forall in H. specialize (H _ I1). cbn beta iota in H.
  rewrite forallb_forall in H. specialize (H _ I2). cbn [fst snd] in H. apply andb_prop in H. destruct H as [S H].
  rewrite (on_class_full c F t p cl n a A K L S). exact (outcome_ok _ _ _ _ _ _ e H).
Qed.
Lemma ctors_gen c F t p cl ks a : ctors_okb F = true -> agrees F t -> closed c t ->
  In (p, cl, ks) jc_ctors -> In a ks -> loaded t p = true -> exists f, construct t p cl a = Ok f.
Proof.
  intros H A K I1 I2 L. unfold ctors_okb in H. rewrite forallb_forall in H. specialize (H _ I1). cbn beta iota in H.
  rewrite forallb_forall in H. specialize (H _ I2). apply andb_prop in H. destruct H as [S H].
  rewrite (construct_full c F t p cl a A K L S). destruct (construct F p cl a) as [f|]; [now exists f|discriminate].
Qed.
Lemma program_closed c fuel l t : (40 <= fuel)%nat -> of_library l -> program c fuel l = Done t -> closed c t /\ (forall q, In q l -> loaded t q = true).
Proof. intros Hf Hl E. destruct (program_ok c fuel l Hf Hl) as (t' & E' & K & D). assert (t' = t) by congruence. subst t'. now split. Qed.

Lemma C130_objects_partial_pf : forall c fuel l t p cl os ms m k n a e, (40 <= fuel)%nat -> of_library l -> program c fuel l = Done t ->
  In (p, cl, os, ms) jc_objects -> In (m, k) os -> In (n, a) ms -> loaded t m = true ->
  (on_object t m k n a = Err e <-> In (m, k, n, a, e) objects_broken).
Proof.
  intros c fuel l t p cl os ms m k n a e Hf Hl E. destruct (program_closed c fuel l t Hf Hl E) as [K _].
  exact (objects_gen c (full c) t p cl os ms m k n a e (objects_ok c) (cl_cons _ _ K) K).
Qed.

Lemma C130_statics_partial_pf : forall c fuel l t p cl ms n a e, (40 <= fuel)%nat -> of_library l -> program c fuel l = Done t ->
  In (p, cl, ms) jc_statics -> In (n, a) ms -> loaded t p = true ->
  (on_class t p cl n a = Err e <-> In (p, cl, n, a, e) statics_broken).
Proof.
  intros c fuel l t p cl ms n a e Hf Hl E. destruct (program_closed c fuel l t Hf Hl E) as [K _].
  exact (statics_gen c (full c) t p cl ms n a e (statics_ok c) (cl_cons _ _ K) K).
Qed.

Lemma C130_ctors_partial_pf : forall c fuel l t p cl ks a, (40 <= fuel)%nat -> of_library l -> program c fuel l = Done t ->
  In (p, cl, ks) jc_ctors -> In a ks -> loaded t p = true -> exists f, construct t p cl a = Ok f.
Proof.
  intros c fuel l t p cl ks a Hf Hl E. destruct (program_closed c fuel l t Hf Hl E) as [K _].
  exact (ctors_gen c (full c) t p cl ks a (ctors_ok c) (cl_cons _ _ K) K).
Qed.

Definition broken_listed : bool :=
  forallb (fun x => let '(m, k, n, a, _) := x in
    mem m lib_names && existsb (fun e => let '(_, _, os, ms) := e in existsb (fun o => String.eqb (fst o) m && String.eqb (snd o) k) os && existsb (fun y => String.eqb (fst y) n && Nat.eqb (snd y) a) ms) jc_objects) objects_broken
  && forallb (fun x => let '(p, cl, n, a, _) := x in
    mem p lib_names && existsb (fun e => let '(p', c', ms) := e in String.eqb p' p && String.eqb c' cl && existsb (fun y => String.eqb (fst y) n && Nat.eqb (snd y) a) ms) jc_statics) statics_broken.
Lemma broken_listed_ok : broken_listed = true.
Proof. vm_compute. reflexivity. Qed.

Lemma C130_refuted_pf : forall m k n a e,
  (In (m, k, n, a, e) objects_broken -> (exists p cl os ms, In (p, cl, os, ms) jc_objects /\ In (m, k) os /\ In (n, a) ms) /\
     forall c fuel l t, (40 <= fuel)%nat -> of_library l -> In m l -> program c fuel l = Done t -> on_object t m k n a = Err e)
  /\ (In (m, k, n, a, e) statics_broken -> (exists ms, In (m, k, ms) jc_statics /\ In (n, a) ms) /\
     forall c fuel l t, (40 <= fuel)%nat -> of_library l -> In m l -> program c fuel l = Done t -> on_class t m k n a = Err e).
Proof.
  intros m k n a e. pose proof broken_listed_ok as B. unfold broken_listed in B. apply andb_prop in B. destruct B as [B1 B2].
  assert (NA : forall ms, existsb (fun y => String.eqb (fst y) n && Nat.eqb (snd y) a) ms = true -> In (n, a) ms).
  { intros ms H. apply existsb_exists in H. destruct H as ([n' a'] & I & H). cbn [fst snd] in H. apply andb_prop in H. destruct H as [H1 H2].
    apply eqb_true in H1. apply Nat.eqb_eq in H2. now subst. }
  split; intros I.
  - rewrite forallb_forall in B1. specialize (B1 _ I). cbn beta iota in B1. apply andb_prop in B1. destruct B1 as [_ B].
    apply existsb_exists in B. destruct B as ([[[p cl] os] ms] & J & B). apply andb_prop in B. destruct B as [B3 B4]. apply NA in B4.
    apply existsb_exists in B3. destruct B3 as ([m' k'] & O & B3). cbn [fst snd] in B3. apply andb_prop in B3. destruct B3 as [B5 B6]. apply eqb_true in B5, B6. subst m' k'.
    split; [exists p, cl, os, ms; repeat split; assumption|]. intros c fuel l t Hf Hl Im E. destruct (program_closed c fuel l t Hf Hl E) as [_ D].
    exact (proj2 (C130_objects_partial_pf c fuel l t p cl os ms m k n a e Hf Hl E J O B4 (D _ Im)) I).
  - rewrite forallb_forall in B2. specialize (B2 _ I). cbn beta iota in B2. apply andb_prop in B2. destruct B2 as [_ B].
    apply existsb_exists in B. destruct B as ([[p' c'] ms] & J & B). apply andb_prop in B. destruct B as [B3 B4]. apply NA in B4.
    apply andb_prop in B3. destruct B3 as [B5 B6]. apply eqb_true in B5, B6. subst p' c'.
    split; [exists ms; split; assumption|]. intros c fuel l t Hf Hl Im E. destruct (program_closed c fuel l t Hf Hl E) as [_ D].
    exact (proj2 (C130_statics_partial_pf c fuel l t m k ms n a e Hf Hl E J B4 (D _ Im)) I).
Qed.

Lemma full_130_gen m k n a e fuel : (40 <= fuel)%nat -> In m lib_names -> In (m, k, n, a, e) objects_broken -> C130_full -> False.
Proof.
  intros Hf Im I H. destruct (proj1 (C130_refuted_pf m k n a e) I) as [(p & cl & os & ms & J & O & N) R].
  assert (Hl : of_library [m]) by (intros q [<-|[]]; exact Im).
  destruct (program_ok true fuel [m] Hf Hl) as (t & E & _ & D). specialize (R true fuel [m] t Hf Hl (or_introl eq_refl) E).
  destruct (proj1 (H true fuel [m] t Hf Hl E) p cl os ms m k n a J O N (D _ (or_introl eq_refl))) as [f F]. congruence.
Qed.

Lemma C130_full_refuted_pf : ~ C130_full.
Proof.
  assert (I : existsb (fun x => let '(m, k, n, a, e) := x in String.eqb m "pythoncard.framework.apdu" && String.eqb k "APDU" && String.eqb n "setOutgoingNoChaining" && Nat.eqb a 0 && exn_same e AttributeError) objects_broken = true) by (vm_compute; reflexivity).
  assert (L : mem "pythoncard.framework.apdu" lib_names = true) by (vm_compute; reflexivity).
  apply mem_In in L. apply existsb_exists in I. destruct I as ([[[[m k] n] a] e] & I & H).
  apply andb_prop in H. destruct H as [H _]. apply andb_prop in H. destruct H as [H _]. apply andb_prop in H. destruct H as [H _]. apply andb_prop in H. destruct H as [H _].
  apply eqb_true in H. subst m. assert (Hf : (40 <= 40)%nat) by lia. exact (full_130_gen _ _ _ _ _ _ Hf L I).
Qed.

(** ** Attributes inside the library *)
Fixpoint deep_stable (F : istate) (home : string) (v : val) (l : list string) : bool :=
  match l with
  | [] => true
  | a :: l' =>
      match v with
      | VMod q => match bnd F q a with Some w => surely q a && deep_stable F q w l' | None => true end
      | VNone => true
      | VDef m c => match class_of m c with None => deep_stable F home VSome l' | Some _ => near home m && mro_stable F depth m c && deep_stable F home VSome l' end
      | _ => deep_stable F home VSome l'
      end
  end.
Lemma deep_full c F t : agrees F t -> closed c t -> forall l home v, loaded t home = true -> deep_stable F home v l = true ->
  (forall q, v = VMod q -> loaded t q = true) -> attrs_deep t v l = attrs_deep F v l.
Proof.
  intros A K. induction l as [|a l IH]; intros home v L H Hv; cbn [attrs_deep deep_stable] in *; [reflexivity|].
  destruct v as [q|m k|p n| |].
  - assert (Lq := Hv q eq_refl). assert (E : bnd t q a = bnd F q a).
    { apply (bnd_full_gen c F t q a A K Lq). intros v V. rewrite V in H. now apply andb_prop in H. }
    rewrite E. destruct (bnd F q a) as [w|] eqn:B; [|reflexivity]. apply andb_prop in H. destruct H as [H1 H2].
    apply (IH q); [exact Lq|exact H2|]. intros r ->. exact (cl_mod _ _ K _ _ _ E).
  - destruct (class_of m k); [|apply (IH home); [exact L|exact H|discriminate]].
    apply andb_prop in H. destruct H as [H H3]. apply andb_prop in H. destruct H as [H1 H2].
    rewrite (mro_full c F t A K depth m k (near_loaded c t home m K L H1) H2). destruct (mro F depth m k) as [[ds r]|]; [|reflexivity].
    destruct (mro_find ds a); [|reflexivity]. apply (IH home); [exact L|exact H3|discriminate].
  - apply (IH home); [exact L|exact H|discriminate].
  - reflexivity.
  - apply (IH home); [exact L|exact H|discriminate].
Qed.
Definition deep_use_stable (F : istate) (m : string) (u : use) : bool :=
  match bnd F m (fst u) with Some v => surely m (fst u) && deep_stable F m v (snd u) | None => deep_stable F m VSome (snd u) end.
Lemma resolve_deep_full c F t m u : agrees F t -> closed c t -> loaded t m = true -> deep_use_stable F m u = true -> resolve_deep t m u = resolve_deep F m u.
Proof.
  intros A K L H. unfold resolve_deep, deep_use_stable in *.
  assert (E : bnd t m (fst u) = bnd F m (fst u)).
  { apply (bnd_full_gen c F t m (fst u) A K L). intros v V. rewrite V in H. now apply andb_prop in H. }
  rewrite E. destruct (bnd F m (fst u)) as [v|].
  - apply andb_prop in H. destruct H as [_ H]. apply (deep_full c F t A K _ m); [exact L|exact H|]. intros q ->. exact (cl_mod _ _ K _ _ _ E).
  - destruct (builtin (fst u)); [|reflexivity]. apply (deep_full c F t A K _ m); [exact L|exact H|discriminate].
Qed.
Definition deep_okb (F : istate) (m : string) (u : use) : bool :=
  use_stable F m u && deep_use_stable F m u && match resolve F m u, resolve_deep F m u with inl _, inl _ => true | inl _, inr _ => false | inr _, _ => true end.
Definition deeps_okb (F : istate) : bool := forallb (fun r => let '(m, _, _, us) := r in forallb (deep_okb F m) us) fn_refs.
Definition is_no_attr (m k f a : string) : bool :=
  String.eqb m "pythoncard.framework.applet" && String.eqb k "Applet" && String.eqb f "selectingApplet" && String.eqb a "_selectingApplet".
Definition selfs_okb (F : istate) : bool :=
  forallb (fun r => let '(m, k, f, _, ns) := r in forallb (fun a => mro_stable F depth m k && Bool.eqb (on_self F depth m k a) (negb (is_no_attr m k f a))) ns) self_refs.
Transparent full.
Lemma deeps_ok c : deeps_okb (full c) = true.
Proof. destruct c; vm_compute; reflexivity. Qed.
Lemma selfs_ok c : selfs_okb (full c) = true.
Proof. destruct c; vm_compute; reflexivity. Qed.
Opaque full.
Lemma deeps_gen c F t m f ln us u v : deeps_okb F = true -> agrees F t -> closed c t -> In (m, f, ln, us) fn_refs -> In u us -> loaded t m = true ->
  resolve t m u = inl v -> exists w, resolve_deep t m u = inl w.
Proof.
  intros H A K I J L. unfold deeps_okb in H. rewrite forallb_forall in H. specialize (H _ I). cbn beta iota in H. rewrite forallb_forall in H. specialize (H _ J).
  unfold deep_okb in H. apply andb_prop in H. destruct H as [H H3]. apply andb_prop in H. destruct H as [H1 H2].
  rewrite (resolve_full_gen c F t m u A K L H1), (resolve_deep_full c F t m u A K L H2). intros E. rewrite E in H3.
  destruct (resolve_deep F m u) as [w|]; [now exists w|discriminate].
Qed.
Lemma selfs_gen c F t m k f ln ns a : selfs_okb F = true -> agrees F t -> closed c t -> In (m, k, f, ln, ns) self_refs -> In a ns -> loaded t m = true ->
  on_self t depth m k a = negb (is_no_attr m k f a).
Proof.
  intros H A K I J L. unfold selfs_okb in H. rewrite forallb_forall in H. specialize (H _ I). cbn beta iota in H. rewrite forallb_forall in H. specialize (H _ J).
  apply andb_prop in H. destruct H as [H1 H2]. rewrite (self_full c F t a A K depth m k L H1). now apply Bool.eqb_prop.
Qed.

Lemma C131_class_attributes_partial_pf : forall c fuel l t m f ln us u v, (40 <= fuel)%nat -> of_library l -> program c fuel l = Done t ->
  In (m, f, ln, us) fn_refs -> In u us -> loaded t m = true -> resolve t m u = inl v -> exists w, resolve_deep t m u = inl w.
Proof.
  intros c fuel l t m f ln us u v Hf Hl E. destruct (program_closed c fuel l t Hf Hl E) as [K _].
  exact (deeps_gen c (full c) t m f ln us u v (deeps_ok c) (cl_cons _ _ K) K).
Qed.

Lemma C131_self_partial_pf : forall c fuel l t m k f ln ns a, (40 <= fuel)%nat -> of_library l -> program c fuel l = Done t ->
  In (m, k, f, ln, ns) self_refs -> In a ns -> loaded t m = true ->
  (on_self t depth m k a = false <-> (m, k, f, a) = ("pythoncard.framework.applet", "Applet", "selectingApplet", "_selectingApplet")).
Proof.
  intros c fuel l t m k f ln ns a Hf Hl E I J L. destruct (program_closed c fuel l t Hf Hl E) as [K _].
  rewrite (selfs_gen c (full c) t m k f ln ns a (selfs_ok c) (cl_cons _ _ K) K I J L). unfold is_no_attr. split.
  - intros H. apply negb_false_iff in H. apply andb_prop in H. destruct H as [H H4]. apply andb_prop in H. destruct H as [H H3]. apply andb_prop in H. destruct H as [H1 H2].
    apply eqb_true in H1, H2, H3, H4. now subst.
  - intros [= -> -> -> ->]. reflexivity.
Qed.

Lemma C131_full_refuted_pf : ~ C131_full.
Proof.
  assert (I : existsb (fun r => let '(m, k, f, _, ns) := r in String.eqb m "pythoncard.framework.applet" && String.eqb k "Applet" && String.eqb f "selectingApplet" && mem "_selectingApplet" ns) self_refs = true) by (vm_compute; reflexivity).
  assert (L : mem "pythoncard.framework.applet" lib_names = true) by (vm_compute; reflexivity).
  apply mem_In in L. apply existsb_exists in I. destruct I as ([[[[m k] f] ln] ns] & I & H).
  apply andb_prop in H. destruct H as [H H4]. apply andb_prop in H. destruct H as [H H3]. apply andb_prop in H. destruct H as [H1 H2].
  apply eqb_true in H1, H2, H3. apply mem_In in H4. subst m k f.
  assert (Hf : (40 <= 40)%nat) by lia. revert Hf. generalize 40%nat at 2 as fuel. intros fuel Hf H.
  assert (Hl : of_library ["pythoncard.framework.applet"]) by (intros q [<-|[]]; exact L).
  destruct (program_ok true fuel _ Hf Hl) as (t & E & _ & D). specialize (D _ (or_introl eq_refl)).
  pose proof (proj2 (H true fuel _ t Hf Hl E) _ _ _ _ _ _ I H4 D) as X.
  rewrite (proj2 (C131_self_partial_pf true fuel _ t _ _ _ _ _ _ Hf Hl E I H4 D) eq_refl) in X. discriminate.
Qed.
