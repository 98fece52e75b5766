(** * C118: which function a call of the TLV classes reaches: proofs *)
From Verif Require Import Py S_Base L_Py M_lookup S_Lookup.
From Coq Require Import String.
Open Scope string_scope.

Lemma mro_find_app sub m n : Forall (fun c => assoc c n = None) sub -> mro_find (sub ++ m) n = mro_find m n.
Proof. induction 1 as [|c r H _ IH]; [reflexivity|]. cbn [app mro_find]. now rewrite H. Qed.
Lemma getattr_obj_pkg fuel dict sub m : adds_only sub dict -> forall n, In n package_names ->
  (forall s b, mro_find m n = Some (NAS b s) -> In b package_names /\ (forall b' s', mro_find m b <> Some (NAS b' s'))) -> (1 <= fuel)%nat ->
  getattr_obj fuel dict (sub ++ m) n = getattr_obj fuel [] m n.
Proof.
  intros A n Hn HN HF. destruct (A n Hn) as [D Sb]. destruct fuel as [|f]; [lia|].
  cbn [getattr_obj]. rewrite D, mro_find_app by assumption. cbn [assoc].
  destruct (mro_find m n) as [[]|] eqn:E; try reflexivity.
  destruct (HN _ _ eq_refl) as [Hb Hb']. destruct (A _ Hb) as [D' Sb'].
  destruct f; cbn [getattr_obj]; rewrite D', mro_find_app by assumption; cbn [assoc];
    destruct (mro_find m boundname) as [[]|] eqn:E'; try reflexivity; now destruct (Hb' boundname0 staticname0).
Qed.
Lemma getattr_cls_pkg fuel dict sub m : adds_only sub dict -> forall n, In n package_names ->
  (forall s b, mro_find m n = Some (NAS b s) -> In s package_names /\ (forall b' s', mro_find m s <> Some (NAS b' s'))) -> (1 <= fuel)%nat ->
  getattr_cls fuel (sub ++ m) n = getattr_cls fuel m n.
Proof.
  intros A n Hn HN HF. destruct (A n Hn) as [D Sb]. destruct fuel as [|f]; [lia|].
  cbn [getattr_cls]. rewrite mro_find_app by assumption.
  destruct (mro_find m n) as [[]|] eqn:E; try reflexivity.
  destruct (HN _ _ eq_refl) as [Hb Hb']. destruct (A _ Hb) as [D' Sb'].
  destruct f; cbn [getattr_cls]; rewrite mro_find_app by assumption;
    destruct (mro_find m staticname) as [[]|] eqn:E'; try reflexivity; now destruct (Hb' boundname0 staticname0).
Qed.
Definition in_names (n : string) : bool := existsb (String.eqb n) package_names.
Lemma in_names_ok n : in_names n = true -> In n package_names.
Proof. unfold in_names. intros H. apply existsb_exists in H as (x & Hx & E). apply String.eqb_eq in E. now subst. Qed.
(** the package's tables are closed: both names of a NotAlwaysStatic are theirs and are
    not NotAlwaysStatic themselves *)
Definition closed_at (m : list cdict) (n : string) : bool :=
  in_names n && match mro_find m n with
  | Some (NAS b s) => in_names b && in_names s
      && match mro_find m b with Some (NAS _ _) => false | _ => true end
      && match mro_find m s with Some (NAS _ _) => false | _ => true end
  | _ => true
  end.
Lemma closed_obj fuel dict sub m n : adds_only sub dict -> (1 <= fuel)%nat -> closed_at m n = true ->
  getattr_obj fuel dict (sub ++ m) n = getattr_obj fuel [] m n.
Proof.
  intros A HF C. unfold closed_at in C. apply andb_prop in C as [C1 C2].
  apply getattr_obj_pkg; try assumption; [now apply in_names_ok|]. intros s b E. rewrite E in C2.
  apply andb_prop in C2 as [C2 C5]. apply andb_prop in C2 as [C2 C4]. apply andb_prop in C2 as [C2 C3].
  split; [now apply in_names_ok|]. intros b' s' E'. rewrite E' in C4. discriminate.
Qed.
Lemma closed_cls fuel dict sub m n : adds_only sub dict -> (1 <= fuel)%nat -> closed_at m n = true ->
  getattr_cls fuel (sub ++ m) n = getattr_cls fuel m n.
Proof.
  intros A HF C. unfold closed_at in C. apply andb_prop in C as [C1 C2].
  apply (getattr_cls_pkg fuel dict); try assumption; [now apply in_names_ok|]. intros s b E. rewrite E in C2.
  apply andb_prop in C2 as [C2 C5]. apply andb_prop in C2 as [C2 C4]. apply andb_prop in C2 as [C2 C3].
  split; [now apply in_names_ok|]. intros b' s' E'. rewrite E' in C5. discriminate.
Qed.
(** more fuel than one changes nothing for the package's own tables *)
Lemma fuel_obj f m n : closed_at m n = true -> getattr_obj (S f) [] m n = getattr_obj 1 [] m n.
Proof.
  intros C. cbn [getattr_obj assoc]. unfold closed_at in C. apply andb_prop in C as [_ C].
  destruct (mro_find m n) as [[]|]; try reflexivity. apply andb_prop in C as [C _]. apply andb_prop in C as [_ C].
  destruct f; cbn [getattr_obj assoc]; destruct (mro_find m boundname) as [[]|]; try reflexivity; discriminate.
Qed.
Lemma fuel_cls f m n : closed_at m n = true -> getattr_cls (S f) m n = getattr_cls 1 m n.
Proof.
  intros C. cbn [getattr_cls]. unfold closed_at in C. apply andb_prop in C as [_ C].
  destruct (mro_find m n) as [[]|]; try reflexivity. apply andb_prop in C as [_ C].
  destruct f; cbn [getattr_cls]; destruct (mro_find m staticname) as [[]|]; try reflexivity; discriminate.
Qed.
Lemma documented_1 d fuel dict sub : In d jc_tlv_api -> (1 <= fuel)%nat -> adds_only sub dict ->
  documented_call fuel dict sub d = documented_call 1 [] [] d.
Proof.
  intros Hd HF A. assert (C : closed_at (mro_of (d_cls d)) (d_name d) = true).
  { assert (G : forallb (fun d => closed_at (mro_of (d_cls d)) (d_name d)) jc_tlv_api = true) by (vm_compute; reflexivity).
    rewrite forallb_forall in G. now apply G. }
  unfold documented_call. cbn [app]. destruct (d_static d).
  - rewrite (closed_cls _ _ _ _ _ A HF C). destruct fuel; [lia|]. now rewrite fuel_cls.
  - rewrite (closed_obj _ _ _ _ _ A HF C). destruct fuel; [lia|]. now rewrite fuel_obj.
Qed.

Lemma C118_reached_partial_pf : forall d f fuel dict sub, In d jc_tlv_api -> impl d = Some f -> (1 <= fuel)%nat -> adds_only sub dict ->
  documented_call fuel dict sub d = Ok f.
Proof.
  intros d f fuel dict sub Hd Hi HF A. rewrite documented_1 by assumption. clear HF A.
  assert (G : forallb (fun d => match impl d, documented_call 1 [] [] d with Some f, Ok g => String.eqb f g | Some _, _ => false | None, _ => true end) jc_tlv_api = true)
    by (vm_compute; reflexivity).
  rewrite forallb_forall in G. specialize (G d Hd). rewrite Hi in G. destruct (documented_call 1 [] [] d); [|discriminate].
  apply String.eqb_eq in G. now subst.
Qed.

Lemma C118_missing_refuted_pf : forall d fuel dict sub, In d jc_tlv_api -> impl d = None -> (1 <= fuel)%nat -> adds_only sub dict ->
  documented_call fuel dict sub d = Err (if String.eqb (d_name d) "getTag" || String.eqb (d_name d) "toBytes" then TypeError else AttributeError).
Proof.
  intros d fuel dict sub Hd Hi HF A. rewrite documented_1 by assumption. clear HF A.
  repeat (destruct Hd as [<-|Hd]; [first [discriminate Hi | vm_compute; reflexivity]|]). destruct Hd.
Qed.

Lemma none_added : adds_only [] [].
Proof. intros n _. split; [reflexivity|constructor]. Qed.

Lemma C118_full_refuted_pf : ~ C118_full.
Proof.
  intros F. destruct (F (mkDoc TTlv "verifyFormat" true 3) 1%nat [] [] ltac:(cbn; tauto) ltac:(lia) none_added) as [f E].
  discriminate E.
Qed.

Lemma C118_static_on_object_refuted_pf : forall c n k fuel dict sub, In (c, n, k) two_way -> (1 <= fuel)%nat -> adds_only sub dict ->
  (exists f, call (getattr_cls fuel (sub ++ mro_of c) n) k = Ok f)
  /\ call (getattr_obj fuel dict (sub ++ mro_of c) n) k = Err TypeError.
Proof.
  intros c n k fuel dict sub Hd HF A. assert (C : closed_at (mro_of c) n = true).
  { assert (G : forallb (fun x => closed_at (mro_of (fst (fst x))) (snd (fst x))) two_way = true) by (vm_compute; reflexivity).
    rewrite forallb_forall in G. exact (G _ Hd). }
  rewrite (closed_cls _ _ _ _ _ A HF C), (closed_obj _ _ _ _ _ A HF C).
  destruct fuel as [|fu]; [lia|]. rewrite fuel_cls, fuel_obj by assumption. clear C.
  repeat (destruct Hd as [Hd|Hd]; [injection Hd as <- <- <-; split; [eexists|]; vm_compute; reflexivity|]). destruct Hd.
Qed.

Lemma C118_static_both_ways_partial_pf : forall c n k f fuel dict sub, In (c, n, k, f) one_way -> (1 <= fuel)%nat -> adds_only sub dict ->
  call (getattr_cls fuel (sub ++ mro_of c) n) k = Ok f /\ call (getattr_obj fuel dict (sub ++ mro_of c) n) k = Ok f.
Proof.
  intros c n k f fuel dict sub Hd HF A. assert (C : closed_at (mro_of c) n = true).
  { assert (G : forallb (fun x => closed_at (mro_of (fst (fst (fst x)))) (snd (fst (fst x)))) one_way = true) by (vm_compute; reflexivity).
    rewrite forallb_forall in G. exact (G _ Hd). }
  rewrite (closed_cls _ _ _ _ _ A HF C), (closed_obj _ _ _ _ _ A HF C).
  destruct fuel as [|fu]; [lia|]. rewrite fuel_cls, fuel_obj by assumption. clear C.
  repeat (destruct Hd as [Hd|Hd]; [injection Hd as <- <- <- <-; split; vm_compute; reflexivity|]). destruct Hd.
Qed.

Lemma C118_override_partial_pf : forall c n k b s c0 id lo hi fuel dict sub, In (c, n, k) two_way -> adds_only sub dict -> (1 <= fuel)%nat ->
  mro_find (mro_of c) n = Some (NAS b s) ->
  assoc c0 b = Some (Func id lo hi) -> assoc c0 n = None -> assoc c0 s = None ->
  getattr_obj fuel dict (c0 :: sub ++ mro_of c) n = Ok (Bound id lo hi)
  /\ getattr_cls fuel (c0 :: sub ++ mro_of c) n = getattr_cls fuel (mro_of c) n.
Proof.
  intros c n k b s c0 id lo hi fuel dict sub Hd A HF E Hb Hn Hs. assert (C : closed_at (mro_of c) n = true).
  { assert (G : forallb (fun x => closed_at (mro_of (fst (fst x))) (snd (fst x))) two_way = true) by (vm_compute; reflexivity).
    rewrite forallb_forall in G. exact (G _ Hd). }
  unfold closed_at in C. rewrite E in C. apply andb_prop in C as [Cn C].
  apply andb_prop in C as [C C5]. apply andb_prop in C as [C C4]. apply andb_prop in C as [C2 C3].
  destruct (A n (in_names_ok _ Cn)) as [Dn Sn]. destruct (A b (in_names_ok _ C2)) as [Db Sb]. destruct (A s (in_names_ok _ C3)) as [Ds Ss].
  destruct fuel as [|fu]; [lia|]. cbn [getattr_obj getattr_cls mro_find]. rewrite Dn, Hn, mro_find_app, E by assumption.
  split.
  - destruct fu; cbn [getattr_obj mro_find]; now rewrite Db, Hb.
  - destruct fu; cbn [getattr_cls mro_find]; rewrite Hs, mro_find_app by assumption;
      destruct (mro_find (mro_of c) s) as [[]|]; try reflexivity; discriminate.
Qed.
