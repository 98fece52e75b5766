(** * C102: BERTag objects over time: proofs *)
From Verif Require Import Py S_Base S_Number S_BER L_Py M_utils L_utils M_util L_util M_bertag LP_bertag LP_tagstat M_tagobj S_TagObj.
From Coq Require Import ZifyBool ZifyNat.
Ltac Zify.zify_post_hook ::= Z.div_mod_to_equations.

Definition same_but_number (o o' : tagobj) : Prop :=
  oclass o' = oclass o /\ oconstr o' = oconstr o /\ osize o' = osize o.
Lemma obj_loop_cont f a off bLen o x num : onumber o = Some num -> py_get a (off + bLen) = Ok x -> Z.land x 128 = 128 ->
  obj_loop (S f) a off bLen o
  = obj_loop f a off (bLen + 1) (mkObj (oclass o) (oconstr o) (Some (Z.shiftl num 7 + Z.land x 127)) (osize o)).
Proof.
  intros N G B. cbn [obj_loop]. rewrite G. unfold bind at 1, lift at 1. rewrite B. cbn [Z.eqb Pos.eqb].
  unfold bind at 1, num_attr at 1. rewrite N. reflexivity.
Qed.
Lemma obj_loop_stop f a off bLen o x : py_get a (off + bLen) = Ok x -> Z.land x 128 <> 128 ->
  obj_loop (S f) a off bLen o = (Ok bLen, o).
Proof.
  intros G B. cbn [obj_loop]. rewrite G. unfold bind at 1, lift at 1. apply Z.eqb_neq in B. rewrite B. reflexivity.
Qed.
Lemma obj_loop_fail f a off bLen o e : py_get a (off + bLen) = Err e -> obj_loop (S f) a off bLen o = (Err e, o).
Proof. intros G. cbn [obj_loop]. rewrite G. reflexivity. Qed.
Lemma obj_loop_spec a off : forall fuel num bLen o, onumber o = Some num ->
  exists o', same_but_number o o' /\
  match tag_loop fuel a off num bLen with
  | Ok (num', bLen') => obj_loop fuel a off bLen o = (Ok bLen', o') /\ onumber o' = Some num'
  | Err e => obj_loop fuel a off bLen o = (Err e, o')
  end.
Proof.
  induction fuel as [|f IH]; intros num bLen o N.
  - exists o. repeat split.
  - cbn [tag_loop]. destruct (py_get a (off + bLen)) as [x|e] eqn:G; cbn [rbind].
    + destruct (Z.eqb_spec (Z.land x 128) 128) as [C|C].
      * rewrite (obj_loop_cont f a off bLen o x num N G C).
        destruct (IH (Z.shiftl num 7 + Z.land x 127) (bLen + 1)
          {| oclass := oclass o; oconstr := oconstr o; onumber := Some (Z.shiftl num 7 + Z.land x 127); osize := osize o |} eq_refl)
          as (o' & E & H).
        exists o'. split; [exact E|exact H].
      * rewrite (obj_loop_stop f a off bLen o x G C). exists o. split; [repeat split|]. split; [reflexivity|exact N].
    + rewrite (obj_loop_fail f a off bLen o e G). exists o. split; [repeat split|reflexivity].
Qed.
Lemma obj_init_spec a off o : match BERTag_init a off with
  | Ok t => obj_BERTag_init a off o = (Ok tt, mkObj (Some (tclass t)) (tconstr t) (Some (tnumber t)) (tsize t))
  | Err e => fst (obj_BERTag_init a off o) = Err e
  end.
Proof.
  remember (obj_BERTag_init a off o) as m eqn:E. unfold BERTag_init. unfold obj_BERTag_init in E. unfold bind at 1, lift at 1 in E.
  destruct (py_get a off) as [b|e]; cbn [rbind]; [|rewrite E; reflexivity].
  unfold bind at 1, set_class at 1 in E. cbn [oconstr onumber osize] in E. unfold bind at 1, set_constr at 1 in E. cbn [oclass onumber osize] in E.
  destruct (Z.land b 31 =? 31).
  - unfold bind at 1, set_number at 1 in E. cbn [oclass oconstr osize] in E.
    set (o1 := {| oclass := _; oconstr := _; onumber := Some 0; osize := _ |}) in E.
    destruct (obj_loop_spec a off (tag_fuel a off) 0 1 o1 eq_refl) as (o' & (C & K & S0) & H).
    destruct (tag_loop (tag_fuel a off) a off 0 1) as [[num bLen]|e]; cbn [rbind].
    + destruct H as [H N]. rewrite (bind_ok _ _ _ _ _ H) in E. unfold bind at 1, num_attr at 1 in E. rewrite N in E.
      unfold bind at 1, set_number at 1 in E. unfold bind at 1, lift at 1 in E. destruct (py_get a (off + bLen)) as [x|e]; cbn [rbind]; [|rewrite E; reflexivity].
      unfold bind at 1, num_attr at 1 in E. cbn [onumber] in E. unfold bind at 1, set_number at 1 in E. cbn [oclass oconstr osize] in E.
      unfold set_size in E. cbn [oclass oconstr onumber] in E. cbn [tclass tconstr tnumber tsize]. rewrite E, C, K. reflexivity.
    + rewrite (bind_err _ _ _ _ _ H) in E. rewrite E. reflexivity.
  - rewrite E. reflexivity.
Qed.
Lemma kind_of (k : bool) b : (if k then Z.land b 32 =? 0 else Z.land b 32 =? 32) = false -> negb (Z.land b 32 =? 0) = k.
Proof. destruct (constr_bit b) as [[_ ->]|[_ ->]]; destruct k; cbn; congruence. Qed.
Lemma step_bytes (k : bool) a off o :
  match (if k then Constructed_init_bytes a off else Primitive_init_bytes a off) with
  | Ok t => step k (InitBytes a off) o = (Ok tt, mkObj (Some (tclass t)) k (Some (tnumber t)) (tsize t))
  | Err e => fst (step k (InitBytes a off) o) = Err e
  end.
Proof.
  remember (step k (InitBytes a off) o) as m eqn:E. unfold step in E.
  unfold bind at 1, set_class at 1 in E. cbn [oconstr onumber osize] in E. unfold bind at 1, set_number at 1 in E. cbn [oclass oconstr osize] in E.
  set (o1 := {| oclass := None; oconstr := _; onumber := None; osize := _ |}) in E.
  unfold bind, lift, raise in E. unfold Constructed_init_bytes, Primitive_init_bytes.
  pose proof (obj_init_spec a off o1) as I.
  destruct (py_get a off) as [b|e] eqn:G; cbn [rbind]; [|destruct k; rewrite E; reflexivity].
  destruct k.
  - destruct (Z.land b 32 =? 0) eqn:K; [rewrite E; reflexivity|]. destruct (BERTag_init a off) as [t|e] eqn:T.
    + rewrite E, I. pose proof (BERTag_init_constr a off t b T G) as KT. rewrite K in KT. rewrite KT. reflexivity.
    + rewrite E. exact I.
  - destruct (Z.land b 32 =? 32) eqn:K; [rewrite E; reflexivity|]. destruct (BERTag_init a off) as [t|e] eqn:T.
    + rewrite E, I. pose proof (BERTag_init_constr a off t b T G) as KT. rewrite (kind_of false b K) in KT. rewrite KT. reflexivity.
    + rewrite E. exact I.
Qed.
Lemma obj_loop_kind a off : forall fuel bLen o,
  let '(_, o') := obj_loop fuel a off bLen o in same_but_number o o'.
Proof.
  induction fuel as [|f IH]; intros bLen o; [repeat split|]. cbn [obj_loop]. unfold bind, lift, num_attr, set_number, ret.
  destruct (py_get a (off + bLen)) as [x|e]; [|repeat split]. destruct (Z.land x 128 =? 128); [|repeat split].
  destruct (onumber o); [|repeat split]. cbn [onumber]. 
  match goal with |- context[obj_loop f a off (bLen + 1) ?q] => specialize (IH (bLen + 1) q) end.
  destruct (obj_loop f a off (bLen + 1) _) as [r o']. exact IH.
Qed.
(** the kind never changes, and the size only if the call returns *)
Lemma step_frame k c o : oconstr o = k -> let '(r, o') := step k c o in
  oconstr o' = k /\ (r <> Ok tt \/ (exists x y, c = InitClass x y) -> osize o' = osize o).
Proof.
  intros K. destruct c as [a off|x y].
  - unfold step, bind, set_class, set_number, lift, raise. cbn [oconstr onumber oclass osize].
    destruct (py_get a off) as [b|e] eqn:G; [|split; [exact K|reflexivity]].
    destruct (if k then Z.land b 32 =? 0 else Z.land b 32 =? 32) eqn:C; [split; [exact K|reflexivity]|].
    apply kind_of in C.
    unfold obj_BERTag_init, bind, lift, set_class, set_constr, set_number, set_size. rewrite G, C. cbn [oclass oconstr onumber osize].
    assert (W : Ok tt <> Ok tt \/ (exists x y, InitBytes a off = InitClass x y) -> False) by (intros [H|(x & y & H)]; [now apply H|discriminate]).
    destruct (Z.land b 31 =? 31).
    + match goal with |- context[obj_loop ?f a off 1 ?q] => pose proof (obj_loop_kind a off f 1 q) as L;
        destruct (obj_loop f a off 1 q) as [[bLen|e] o'] end.
      * destruct L as (L1 & L2 & L3). cbn [oconstr osize] in L2, L3. unfold num_attr.
        destruct (onumber o'); [|split; [exact L2|intros _; exact L3]]. cbn [oclass oconstr onumber osize].
        destruct (py_get a (off + bLen)); cbn [oclass oconstr onumber osize]; (split; [exact L2|]);
          [intros H; contradiction (W H)|intros _; exact L3].
      * destruct L as (L1 & L2 & L3). split; [exact L2|intros _; exact L3].
    + split; [reflexivity|]. intros H. contradiction (W H).
  - cbn. split; [exact K|reflexivity].
Qed.
Lemma run_kind k cs : forall o, oconstr o = k -> oconstr (snd (run k cs o)) = k.
Proof.
  induction cs as [|c cs IH]; intros o K; [exact K|]. cbn [run]. pose proof (step_frame k c o K) as F.
  destruct (step k c o) as [r o1]. destruct F as [F _]. specialize (IH o1 F). destruct (run k cs o1) as [rs o2]. exact IH.
Qed.
Lemma step_outcome k c o o1 : fst (step k c o) = fst (step k c o1).
Proof.
  destruct c as [a off|x y]; [|reflexivity].
  pose proof (step_bytes k a off o) as H. pose proof (step_bytes k a off o1) as H'.
  destruct (if k then Constructed_init_bytes a off else Primitive_init_bytes a off); rewrite H, H'; reflexivity.
Qed.

Lemma C102_history_pf : forall k before c rs o, run k before (new_obj k) = (rs, o) ->
  fst (step k c o) = fst (step k c (new_obj k))
  /\ (fst (step k c o) = Ok tt -> let o1 := snd (step k c (new_obj k)) in let o2 := snd (step k c o) in
      oclass o2 = oclass o1 /\ onumber o2 = onumber o1 /\ oconstr o2 = k /\ obj_eqb o2 o1 = true).
Proof.
  intros k before c rs o R. split; [apply step_outcome|]. intros E.
  assert (K : oconstr o = k) by (pose proof (run_kind k before (new_obj k) eq_refl) as H; rewrite R in H; exact H).
  assert (OR : forall x, optZ_eqb x x = true) by (intros [x|]; [apply Z.eqb_refl|reflexivity]).
  destruct c as [a off|x y].
  - pose proof (step_bytes k a off o) as H. pose proof (step_bytes k a off (new_obj k)) as H'.
    destruct (if k then Constructed_init_bytes a off else Primitive_init_bytes a off) as [t|e]; [|congruence].
    rewrite H, H'. cbn [snd oclass onumber oconstr].
    repeat split. unfold obj_eqb. cbn [oclass onumber oconstr]. rewrite !OR, Bool.eqb_reflx. reflexivity.
  - cbn [step bind set_class set_number snd oclass oconstr onumber new_obj]. cbn. rewrite K. repeat split.
    unfold obj_eqb. cbn [oclass onumber oconstr]. rewrite !OR, Bool.eqb_reflx. reflexivity.
Qed.

Lemma C102_last_partial_pf : forall k before rs o c cl n os off out, run k before (new_obj k) = (rs, o) ->
  stores k c cl n -> 0 <= cl <= 3 -> 0 <= n -> identifier cl k n os -> 0 <= off -> off + zlen os <= zlen out ->
  exists o', step k c o = (Ok tt, o') /\ oclass o' = Some cl /\ oconstr o' = k /\ onumber o' = Some n
    /\ obj_toBytes o' off out = (Ok (zlen os), splice (map s1 out) (Z.to_nat off) (map (twos 1) os)).
Proof.
  intros k before rs o c cl n os off out R St Hc Hn I O L.
  assert (K : oconstr o = k) by (pose proof (run_kind k before (new_obj k) eq_refl) as H; rewrite R in H; exact H).
  assert (TB : forall sz, tag_toBytes (mkTag cl k n sz) off out = (Ok (zlen os), splice (map s1 out) (Z.to_nat off) (map (twos 1) os))).
  { intros sz. apply toBytes_exact; assumption. }
  inversion_clear St as [a off' c' n' os' O' C' I' OC|].
  - destruct (BERTag_init_exact cl k n os' a off' I' C' O' OC) as (E & b & G & B).
    pose proof (step_bytes k a off' o) as H.
    replace (if k then Constructed_init_bytes a off' else Primitive_init_bytes a off')
      with (BERTag_init a off') in H by (unfold Constructed_init_bytes, Primitive_init_bytes; rewrite G; cbn [rbind]; rewrite B; destruct k; reflexivity).
    rewrite E in H. eexists. split; [exact H|]. cbn [oclass oconstr onumber].
    split; [reflexivity|]. split; [reflexivity|]. split; [reflexivity|]. apply TB.
  - eexists. split; [reflexivity|]. cbn [oclass oconstr onumber]. rewrite K. split; [reflexivity|]. split; [reflexivity|].
    split; [reflexivity|]. apply TB.
Qed.

Lemma C102_new_pf : forall k off out, 0 <= off < zlen out ->
  obj_toBytes (new_obj k) off out = (Ok 1, splice (map s1 out) (Z.to_nat off) [if k then 32 else 0])
  /\ obj_eqb (new_obj k) (snd (step k (InitClass 0 0) (new_obj k))) = true /\ osize (new_obj k) = 0.
Proof.
  intros k off out H. split; [|split; [destruct k; reflexivity|reflexivity]].
  assert (I : identifier 0 k 0 [if k then 32 else 0]).
  { pose proof (ident_low 0 k 0 ltac:(lia)) as X. destruct k; exact X. }
  pose proof (toBytes_exact 0 k 0 0 _ off out I) as TB. cbn [map] in TB.
  replace (twos 1 (if k then 32 else 0)) with (if k then 32 else 0) in TB by (destruct k; reflexivity).
  apply TB; rewrite ?zlen_cons, ?zlen_nil; lia.
Qed.

Lemma C102_kind_refuted_pf : forall k before rs o a ioff cl n os off out, run k before (new_obj k) = (rs, o) ->
  0 <= ioff -> 0 <= cl <= 3 -> identifier cl (negb k) n os -> octets (sub a (Z.to_nat ioff) (length os)) = os ->
  exists o', step k (InitBytes a ioff) o = (Err MALFORMED_TAG, o')
    /\ oclass o' = None /\ onumber o' = None /\ osize o' = osize o /\ oconstr o' = k
    /\ obj_toBytes o' off out = (Err TypeError, out).
Proof.
  intros k before rs o a ioff cl n os off out R O C I OC.
  assert (K : oconstr o = k) by (pose proof (run_kind k before (new_obj k) eq_refl) as H; rewrite R in H; exact H).
  destruct (BERTag_init_exact cl (negb k) n os a ioff I C O OC) as (_ & b & G & B).
  unfold step, bind, set_class, set_number, lift, raise. rewrite G. cbn [oclass oconstr onumber osize]. rewrite B.
  destruct k; cbn [negb Z.eqb]; eexists; (split; [reflexivity|]); cbn [oclass oconstr onumber osize]; rewrite K; repeat split.
Qed.

Lemma C102_truncated_refuted_pf : forall k before rs o a ioff cl ds, run k before (new_obj k) = (rs, o) ->
  0 <= ioff -> 0 <= cl <= 3 -> Forall (fun d => 0 <= d < 128) ds ->
  octets (skipn (Z.to_nat ioff) a) = (64 * cl + (if k then 32 else 0) + 31) :: map (fun d => 128 + d) ds ->
  exists o', step k (InitBytes a ioff) o = (Err IndexError, o')
    /\ oclass o' = Some cl /\ onumber o' = Some (digits_value 128 ds) /\ osize o' = osize o /\ oconstr o' = k
    /\ forall off out os, 0 <= off -> identifier cl k (digits_value 128 ds) os -> off + zlen os <= zlen out ->
       obj_toBytes o' off out = (Ok (zlen os), splice (map s1 out) (Z.to_nat off) (map (twos 1) os)).
Proof.
  intros k before rs o a ioff cl ds R O C D OC.
  assert (K : oconstr o = k) by (pose proof (run_kind k before (new_obj k) eq_refl) as H; rewrite R in H; exact H).
  assert (LA : zlen a = ioff + 1 + zlen ds).
  { apply (f_equal (@length Z)) in OC. unfold octets in OC. rewrite map_length, skipn_length in OC. cbn [length] in OC.
    rewrite map_length in OC. unfold zlen. lia. }
  assert (GET : forall j, (j < S (length ds))%nat -> exists x, py_get a (ioff + Z.of_nat j) = Ok x
     /\ x mod 256 = nth j ((64 * cl + (if k then 32 else 0) + 31) :: map (fun d => 128 + d) ds) 0).
  { intros j J. exists (nth (Z.to_nat (ioff + Z.of_nat j)) a 0). split; [apply py_get_in; unfold zlen in *; lia|].
    rewrite <- OC. unfold octets. rewrite (nth_indep (map (fun b => b mod 256) (skipn (Z.to_nat ioff) a)) 0 (0 mod 256)); [|rewrite map_length, skipn_length; unfold zlen in *; lia].
    rewrite (map_nth (fun b => b mod 256)). f_equal.
    rewrite <- (firstn_skipn (Z.to_nat ioff) a) at 1. rewrite app_nth2; rewrite firstn_length; [f_equal|]; unfold zlen in *; lia. }
  assert (LOOP : forall l2 l1 fuel q, ds = l1 ++ l2 -> onumber q = Some (digits_value 128 l1) -> (length l2 < fuel)%nat ->
     exists o', obj_loop fuel a ioff (1 + zlen l1) q = (Err IndexError, o') /\ same_but_number q o' /\ onumber o' = Some (digits_value 128 ds)).
  { induction l2 as [|d l2 IH]; intros l1 fuel q E N F.
    - rewrite app_nil_r in E. subst l1. exists q. destruct fuel as [|f]; [cbn in F; lia|]. split; [|split; [repeat split|exact N]].
      apply obj_loop_fail. apply py_get_out. right. lia.
    - destruct fuel as [|f]; [cbn in F; lia|]. destruct (GET (S (length l1))) as (x & G & X); [rewrite E, app_length; cbn; lia|].
      replace (ioff + Z.of_nat (S (length l1))) with (ioff + (1 + zlen l1)) in G by (unfold zlen; lia).
      cbn [nth] in X. rewrite E, map_app, app_nth2 in X by (rewrite map_length; lia). rewrite map_length, Nat.sub_diag in X. cbn [map nth] in X.
      assert (DD : 0 <= d < 128) by (rewrite Forall_forall in D; apply D; rewrite E; apply in_or_app; right; left; reflexivity).
      destruct (octet_bits (x mod 256)) as (OB & _); [lia|].
      assert (B8 : Z.land x 128 = 128) by (rewrite land_mod256 by lia; rewrite OB, X; clear - DD; lia).
      assert (B7 : Z.land x 127 = d) by (change 127 with (Z.ones 7); rewrite Z.land_ones by lia; lia).
      rewrite (obj_loop_cont f a ioff (1 + zlen l1) q x _ N G B8).
      rewrite B7. replace (1 + zlen l1 + 1) with (1 + zlen (l1 ++ [d])) by (rewrite zlen_app, zlen_cons, zlen_nil; lia).
      match goal with |- context[obj_loop f a ioff _ ?p] => destruct (IH (l1 ++ [d]) f p) as (o' & E' & (S1 & S2 & S3) & N') end.
      + rewrite <- app_assoc. exact E.
      + cbn [onumber]. f_equal. rewrite digits_value_snoc, Z.shiftl_mul_pow2 by lia. reflexivity.
      + cbn in F. lia.
      + exists o'. split; [exact E'|]. split; [repeat split; assumption|exact N']. }
  destruct (GET 0%nat) as (b & G & B); [lia|]. cbn [nth Z.of_nat] in B. rewrite Z.add_0_r in G.
  destruct (octet_bits (b mod 256)) as (O1 & O2 & O3 & O4); [lia|].
  assert (B32 : Z.land b 32 = if k then 32 else 0) by (rewrite land_mod256 by lia; rewrite O2, B; destruct k; lia).
  assert (B31 : Z.land b 31 = 31) by (rewrite land_mod256 by lia; rewrite O3, B; destruct k; lia).
  assert (CL : Z.shiftr (Z.land b 255) 6 = cl).
  { change 255 with (Z.ones 8). rewrite Z.land_ones, Z.shiftr_div_pow2 by lia. change (2 ^ 8) with 256. change (2 ^ 6) with 64. rewrite B. destruct k; lia. }
  destruct (LOOP ds [] (tag_fuel a ioff) (mkObj (Some cl) k (Some 0) (osize o))) as (o' & E & (S1 & S2 & S3) & N');
    [reflexivity|reflexivity|unfold tag_fuel; unfold zlen in *; lia|].
  cbn [oclass oconstr osize] in S1, S2, S3.
  exists o'. split.
  - unfold step. unfold bind at 1, set_class at 1. cbn [oconstr onumber osize]. unfold bind at 1, set_number at 1. cbn [oclass oconstr osize].
    unfold bind at 1, lift at 1. rewrite G.
    replace (if k then Z.land b 32 =? 0 else Z.land b 32 =? 32) with false by (rewrite B32; destruct k; reflexivity).
    unfold obj_BERTag_init. unfold bind at 1, lift at 1. rewrite G. rewrite B31, B32, CL.
    unfold bind at 1, set_class at 1. cbn [oconstr onumber osize]. unfold bind at 1, set_constr at 1. cbn [oclass onumber osize].
    cbn [Z.eqb Pos.eqb]. unfold bind at 1, set_number at 1. cbn [oclass oconstr osize].
    apply bind_err. replace (negb ((if k then 32 else 0) =? 0)) with k by (destruct k; reflexivity). exact E.
  - split; [exact S1|]. split; [exact N'|]. split; [exact S3|]. split; [exact S2|].
    intros off out os Ho I L. unfold obj_toBytes. rewrite S1, N', S2. apply toBytes_exact; assumption.
Qed.

Lemma C102_size_refuted_pf : forall k before rs o a off c n os c' n', run k before (new_obj k) = (rs, o) ->
  0 <= off -> 0 <= c <= 3 -> identifier c k n os -> octets (sub a (Z.to_nat off) (length os)) = os ->
  osize (snd (run k [InitBytes a off; InitClass c' n'] o)) = (if n <=? 30 then 1 else zlen os - 1)
  /\ osize (snd (run k [InitClass c' n'] (new_obj k))) = 0.
Proof.
  intros k before rs o a off c n os c' n' R O C I OC. split; [|reflexivity].
  destruct (BERTag_init_exact c k n os a off I C O OC) as (E & b & G & B).
  pose proof (step_bytes k a off o) as H.
  replace (if k then Constructed_init_bytes a off else Primitive_init_bytes a off)
    with (BERTag_init a off) in H by (unfold Constructed_init_bytes, Primitive_init_bytes; rewrite G; cbn [rbind]; rewrite B; destruct k; reflexivity).
  rewrite E in H. cbn [tclass tnumber tsize] in H. cbn [run]. rewrite H. reflexivity.
Qed.

Lemma C102_equal_pf : forall o o' c n c' n', oclass o = Some c -> onumber o = Some n -> oclass o' = Some c' -> onumber o' = Some n' ->
  0 <= c <= 3 -> 0 <= c' <= 3 -> 0 <= n -> 0 <= n' ->
  (obj_eqb o o' = true <-> forall off out, obj_toBytes o off out = obj_toBytes o' off out).
Proof.
  intros o o' c n c' n' E1 E2 E3 E4 C C' N N'. unfold obj_eqb, obj_toBytes. rewrite E1, E2, E3, E4. cbn [optZ_eqb]. split.
  - intros H. apply andb_prop in H as [H H3]. apply andb_prop in H as [H1 H2]. apply Z.eqb_eq in H1, H3. apply Bool.eqb_prop in H2.
    subst c' n'. rewrite H2. reflexivity.
  - intros H. destruct (C39_identifier_pf c (oconstr o) n N) as (os & I & _). destruct (C39_identifier_pf c' (oconstr o') n' N') as (os' & I' & _).
    pose (a := repeat 0 (length os + length os')). specialize (H 0 a).
    assert (L : 0 + zlen os <= zlen a /\ 0 + zlen os' <= zlen a) by (unfold a, zlen; rewrite repeat_length; lia).
    destruct (C103_unambiguous_pf c (oconstr o) n (osize o) os c' (oconstr o') n' (osize o') os' 0 0 a a C C' I I' ltac:(lia) ltac:(lia) (proj1 L) (proj2 L))
      as (l1 & b1 & l2 & b2 & T1 & T2 & T3).
    rewrite T1, T2 in H. assert (l1 = l2) by congruence. assert (b1 = b2) by congruence. subst l2 b2. specialize (T3 eq_refl).
    unfold tag_eqb in T3. cbn [tclass tconstr tnumber] in T3. exact T3.
Qed.

Lemma C102_full_refuted_pf : ~ C102_full.
Proof.
  intros F. destruct (F false [InitClass 1 5; InitBytes [32] 0] [Ok tt; Err MALFORMED_TAG]
    (snd (run false [InitClass 1 5; InitBytes [32] 0] (new_obj false))) [] (InitClass 1 5) 1 5) as [E _].
  - reflexivity.
  - reflexivity.
  - constructor.
  - discriminate.
Qed.
