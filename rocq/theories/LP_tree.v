(** * C98: nested TLVs are built, written, found and read back: proofs *)
From Verif Require Import Py S_Base S_Number S_BER L_Py M_utils L_utils M_util L_util M_bertag M_bertlv S_TLV LP_bertag LP_bertlv M_tree S_Tree.
From Coq Require Import ZifyBool ZifyNat.
Ltac Zify.zify_post_hook ::= Z.div_mod_to_equations.


Lemma tree_ind' (P : tree -> Prop) : (forall c n v, P (Leaf c n v)) -> (forall c n cs, Forall P cs -> P (Node c n cs)) -> forall t, P t.
Proof.
  intros H1 H2. fix IH 1. intros [c n v|c n cs]; [apply H1|apply H2].
  induction cs as [|t cs IHcs]; constructor; [apply IH|exact IHcs].
Qed.
Definition tb_of (t : tree) : Z := match t with Leaf c n _ => 64 * c + n | Node c n _ => 64 * c + 32 + n end.
Fixpoint cells (t : tree) : list Z :=
  match t with
  | Leaf c n v => enc (twos 1 (64 * c + n), v)
  | Node c n cs => enc (twos 1 (64 * c + 32 + n), concat (map cells cs))
  end.
Definition content (t : tree) : list Z := match t with Leaf _ _ v => v | Node _ _ cs => concat (map cells cs) end.
Lemma cells_eq t : cells t = enc (twos 1 (tb_of t), content t).
Proof. destruct t; reflexivity. Qed.
Lemma all_small cs : (fix all cs := match cs with [] => True | ch :: cs' => small ch /\ all cs' end) cs <-> Forall small cs.
Proof. induction cs as [|t cs IH]; split; intros H; constructor; try tauto; [inversion H; tauto|inversion H; tauto]. Qed.
Lemma cells_length t : length (cells t) = length (ber t).
Proof.
  induction t as [c n v|c n cs IH] using tree_ind'; [reflexivity|]. cbn [cells ber enc fst snd length]. do 2 f_equal.
  induction IH as [|t cs H _ IHcs]; [reflexivity|]. cbn [map concat]. rewrite !app_length. lia.
Qed.
Lemma concat_length cs : length (concat (map cells cs)) = length (concat (map ber cs)).
Proof. induction cs as [|t cs IH]; [reflexivity|]. cbn [map concat]. rewrite !app_length, cells_length. lia. Qed.
Lemma small_tb t : small t -> ubyte (tb_of t) /\ tb_of t mod 32 <> 31 /\ zlen (content t) <= 127
  /\ Z.testbit (tb_of t) 5 = match t with Leaf _ _ _ => false | Node _ _ _ => true end.
Proof.
  assert (B : forall c n (k : bool), 0 <= c <= 3 -> 0 <= n <= 30 -> Z.testbit (64 * c + (if k then 32 else 0) + n) 5 = k).
  { intros c n k Hc Hn. rewrite bit5, (land_mod256 _) by lia. rewrite Z.mod_small by (destruct k; lia).
    destruct (octet_bits (64 * c + (if k then 32 else 0) + n)) as (_ & Q & _); [destruct k; lia|]. rewrite Q.
    destruct k; [replace (_ =? 0) with false by lia|replace (_ =? 0) with true by lia]; reflexivity. }
  destruct t as [c n v|c n cs]; cbn [small tb_of content]; intros H.
  - unfold ubyte. split; [lia|]. split; [lia|]. split; [tauto|].
    replace (64 * c + n) with (64 * c + 0 + n) by lia. apply (B c n false); lia.
  - unfold ubyte. split; [lia|]. split; [lia|]. split; [|apply (B c n true); lia].
    unfold zlen. rewrite concat_length. fold (zlen (concat (map ber cs))). tauto.
Qed.
Lemma twos1_any b : ubyte b -> anybyte (twos 1 b) /\ twos 1 b mod 256 = b /\ twos 1 b mod 32 = b mod 32.
Proof. unfold ubyte, anybyte. intros H. rewrite twos1. destruct (Z.ltb_spec (b mod 256) 128); lia. Qed.
Lemma ubyte_any b : ubyte b -> anybyte b.
Proof. unfold ubyte, anybyte; lia. Qed.
Lemma small_simple t : small t -> simple (tb_of t, content t) /\ simple (twos 1 (tb_of t), content t).
Proof.
  intros H. destruct (small_tb t H) as (A & B & C & _). destruct (twos1_any _ A) as (D & _ & E).
  split; (split; [|split]); cbn [fst snd]; auto using ubyte_any. congruence.
Qed.
Lemma tag_object_ok c k n : 0 <= c <= 3 -> 0 <= n <= 30 -> tag_object c k n = Ok (tag_of (64 * c + (if k then 32 else 0) + n)).
Proof. intros Hc Hn. unfold tag_object. apply init_low; [reflexivity|]. destruct k; lia. Qed.
Lemma append_all_ok cs : Forall (fun t => small t -> build t = Ok (tlv_of (tb_of t, content t))) cs -> Forall small cs ->
  forall g P, append_all build cs (mkTLV true (Some g) (zlen P) (Some P))
    = Ok (mkTLV true (Some g) (zlen (P ++ concat (map cells cs))) (Some (P ++ concat (map cells cs)))).
Proof.
  induction 1 as [|t cs Ht _ IH]; intros Hs g P; [cbn [map concat append_all]; now rewrite app_nil_r|].
  inversion_clear Hs as [|? ? Hs1 Hs2]. cbn [append_all]. rewrite (Ht Hs1). cbn [rbind].
  destruct (small_simple t Hs1) as [S1 _].
  destruct (C47_partial_pf (tb_of t) (content t) (mkTLV true (Some g) (zlen P) (Some P)) P [] S1 eq_refl) as (r & self' & E & Hr & K & T & V & L & _).
  rewrite E. destruct self' as [k' t' l' v']. cbn [tkind ttag tlen tval] in *. subst k' t' l' v'.
  unfold tlv_size in Hr. cbn [ttag] in Hr. subst r.
  replace (zlen P + zlen (enc (tb_of t, content t))) with (zlen (P ++ cells t)) by (rewrite zlen_app, cells_eq, !enc_length; reflexivity).
  rewrite <- cells_eq. fold (append_all build). rewrite (IH Hs2). cbn [map concat]. now rewrite <- app_assoc.
Qed.
Lemma build_ok t : small t -> build t = Ok (tlv_of (tb_of t, content t)).
Proof.
  induction t as [c n v|c n cs IH] using tree_ind'; intros H; pose proof (small_tb _ H) as (_ & _ & _ & T5); cbn [small] in H; cbn [build].
  - rewrite tag_object_ok by tauto. cbn [rbind]. unfold init_tag, newTLV, tlv_of. cbn [tkind tb_of content fst snd] in *.
    rewrite T5, Z.add_0_r. pose proof (py_slice_app [] v []) as Q. cbn [app] in Q. rewrite app_nil_r in Q. change (zlen []) with 0 in Q. now rewrite Q.
  - rewrite tag_object_ok by tauto. cbn [rbind]. unfold init_tag, newTLV. cbn [tkind]. change (py_slice [] 0 (0 + 0)) with (@nil Z).
    assert (F : Forall small cs) by (now apply all_small).
    pose proof (append_all_ok cs IH F (tag_of (64 * c + 32 + n)) []) as Q. cbn [app] in Q. change (zlen []) with 0 in Q. rewrite Q.
    unfold tlv_of. cbn [tb_of content fst snd] in *. now rewrite T5.
Qed.
Lemma octets_cells t : small t -> octets (cells t) = ber t.
Proof.
  induction t as [c n v|c n cs IH] using tree_ind'; intros H; pose proof (small_tb _ H) as (A & _ & C & _); destruct (twos1_any _ A) as (_ & E & _);
    cbn [small] in H; rewrite cells_eq; unfold octets, enc; cbn [fst snd map tb_of content ber] in *; rewrite E.
  - f_equal. f_equal; [apply Z.mod_small; pose proof (zlen_nonneg v); lia|]. destruct H as (_ & _ & F & _).
    induction F as [|x v Hx _ IHv]; [reflexivity|]. cbn [map]. f_equal; [unfold ubyte in Hx; lia|].
    apply IHv. rewrite zlen_cons in C. lia.
  - assert (L : zlen (concat (map cells cs)) = zlen (concat (map ber cs))) by (unfold zlen; now rewrite concat_length).
    f_equal. f_equal; [rewrite L; apply Z.mod_small; pose proof (zlen_nonneg (concat (map ber cs))); lia|].
    destruct H as (_ & _ & _ & F). apply all_small in F. clear - IH F.
    induction IH as [|t cs Ht _ IHcs]; [reflexivity|]. inversion_clear F. cbn [map concat]. rewrite map_app. f_equal; [now apply Ht|now apply IHcs].
Qed.
Lemma tag_of_fields t : small t -> tag_of (twos 1 (tb_of t)) = tag_of (tb_of t)
  /\ root_tag t = (tclass (tag_of (tb_of t)), tconstr (tag_of (tb_of t)), tnumber (tag_of (tb_of t))).
Proof.
  intros H. destruct (small_tb t H) as (A & B & C & D). destruct (small_simple t H) as [S1 _].
  split.
  - destruct (C47_partial_pf (tb_of t) (content t) (mkTLV true None 0 (Some [])) [] [] S1 eq_refl) as (r & self' & E & Hr & K & T & V & L & Q).
    now apply Q.
  - unfold tag_of. cbn [tclass tconstr tnumber]. rewrite D. destruct t; cbn [root_tag tb_of small] in *; repeat f_equal; lia.
Qed.

Lemma cells_any t : small t -> Forall anybyte (cells t).
Proof.
  induction t as [c n v|c n cs IH] using tree_ind'; intros H; destruct (small_tb _ H) as (A & _ & C & _); destruct (twos1_any _ A) as (E & _);
    cbn [small] in H; rewrite cells_eq; unfold enc; cbn [fst snd tb_of content] in *; (constructor; [exact E|]).
  - constructor; [unfold anybyte; pose proof (zlen_nonneg v); lia|]. destruct H as (_ & _ & F & _). eapply Forall_impl; [|exact F]. exact ubyte_any.
  - constructor; [unfold anybyte; pose proof (zlen_nonneg (concat (map cells cs))); lia|]. destruct H as (_ & _ & _ & F). apply all_small in F. clear - IH F.
    induction IH as [|t cs Ht _ IHcs]; [constructor|]. inversion_clear F. cbn [map concat]. apply Forall_app. split; [now apply Ht|now apply IHcs].
Qed.
Lemma tag_of_mod a b : a mod 256 = b mod 256 -> tag_of a = tag_of b.
Proof.
  intros H. unfold tag_of. rewrite H. assert (E : a mod 32 = b mod 32) by lia. rewrite E. rewrite !bit5, (land_mod256 a), (land_mod256 b), H by lia. reflexivity.
Qed.

(** *** C98 *)

Lemma C98_build_partial_pf : forall t, small t -> exists obj, build t = Ok obj
  /\ tlv_size obj = Ok (zlen (ber t))
  /\ forall off out, 0 <= off -> off + zlen (ber t) <= zlen out ->
     exists bs, octets bs = ber t /\ Forall anybyte bs
       /\ tlv_toBytes obj off out = (Ok (zlen (ber t)), splice (map s1 out) (Z.to_nat off) bs).
Proof.
  intros t H. exists (tlv_of (tb_of t, content t)). split; [now apply build_ok|]. destruct (small_simple t H) as [S1 _].
  assert (L : zlen (ber t) = 2 + zlen (content t)) by (unfold zlen; rewrite <- cells_length, cells_eq; unfold enc; cbn [snd length]; lia).
  split; [rewrite tlv_of_size, enc_length, L by assumption; reflexivity|].
  intros off out H0 H1. exists (cells t). split; [now apply octets_cells|]. split; [now apply cells_any|].
  destruct (small_tb t H) as (A & B & C & D). unfold tlv_of. cbn [fst snd]. unfold ubyte in A.
  rewrite toBytes_simple; cbn [tag_of tclass tconstr tnumber]; try lia.
  rewrite L, cells_eq. unfold enc. cbn [fst snd]. f_equal. do 3 f_equal. rewrite D. destruct t; cbn [tb_of small] in *; lia.
Qed.

Lemma cons2_inj {A} (a b a' b' : A) l l' : a :: b :: l = a' :: b' :: l' -> a = a' /\ b = b' /\ l = l'.
Proof. intros H. injection H. auto. Qed.
Lemma read_ok t : small t -> forall pre bs post fuel, Forall anybyte bs -> octets bs = ber t -> (length bs <= fuel)%nat ->
  read fuel (pre ++ bs ++ post) (zlen pre) = Ok t.
Proof.
  induction t as [c n v|c n cs IH] using tree_ind'; intros H pre bs post fuel Hb Ho Hf;
  destruct (small_tb _ H) as (A & B & C & D); destruct (tag_of_fields _ H) as (_ & RT);
  (destruct bs as [|tb [|l body]]; [discriminate Ho..|]); cbn [ber] in Ho; unfold octets in Ho; cbn [map] in Ho;
  apply cons2_inj in Ho; destruct Ho as (O1 & O2 & O3); inversion_clear Hb as [|? ? Hb1 Hb']; inversion_clear Hb' as [|? ? Hb2 Hb3];
  (destruct fuel as [|fuel]; [cbn in Hf; lia|]).
  - assert (Lb : zlen body = zlen v) by (unfold zlen; now rewrite <- O3, map_length).
    assert (El : l = zlen body).
    { cbn [content] in C. pose proof (zlen_nonneg v). unfold anybyte in Hb2. lia. }
    subst l. assert (S1 : simple (tb, body)).
    { split; [exact Hb1|]. cbn [fst snd tb_of content] in *. unfold ubyte in A. split; lia. }
    change (tb :: zlen body :: body) with (enc (tb, body)).
    destruct (parse_child pre (tb, body) post S1) as [P1 P2]. cbn [read]. rewrite P1. cbn [rbind tlv_of ttag fst snd].
    rewrite (tag_of_mod tb (64 * c + n)) by (cbn [tb_of] in *; unfold ubyte in A; lia).
    cbn [root_tag tb_of] in RT. apply pair_equal_spec in RT as [RT R3]; apply pair_equal_spec in RT as [R1 R2]. rewrite <- R1, <- R2, <- R3.
    unfold read_value, getValue, tlv_of. cbn [tval tlen fst snd].
    rewrite (bind_ok _ _ _ tt (splice (py_repeat 0 (zlen body)) (Z.to_nat 0) (sub body (Z.to_nat 0) (Z.to_nat (zlen body))))).
    2:{ pose proof (zlen_nonneg body). apply arrayCopy_into_ok; try lia. unfold py_repeat, zlen. rewrite repeat_length. lia. }
    cbn [ret rbind]. f_equal. f_equal. change (Z.to_nat 0) with 0%nat. rewrite to_nat_zlen, sub_full by lia.
    rewrite <- (app_nil_r (splice _ _ _)). unfold splice, py_repeat. cbn [firstn Nat.add app]. rewrite to_nat_zlen, skipn_all2 by (rewrite repeat_length; lia).
    rewrite !app_nil_r, <- O3. apply map_ext. intros b. unfold u1. change 255 with (Z.ones 8). now rewrite Z.land_ones by lia.
  - cbn [content tb_of small] in *. assert (F : Forall small cs) by (apply all_small; tauto).
    assert (Lb : zlen body = zlen (concat (map ber cs))) by (unfold zlen; now rewrite <- O3, map_length).
    assert (El : l = zlen body).
    { pose proof (zlen_nonneg body). unfold anybyte in Hb2. lia. }
    subst l. assert (S1 : simple (tb, body)).
    { split; [exact Hb1|]. cbn [fst snd]. unfold ubyte in A. split; lia. }
    change (tb :: zlen body :: body) with (enc (tb, body)).
    destruct (parse_child pre (tb, body) post S1) as [P1 P2]. cbn [read]. rewrite P1. cbn [rbind tlv_of ttag fst snd].
    rewrite (tag_of_mod tb (64 * c + 32 + n)) by (unfold ubyte in A; lia).
    cbn [root_tag] in RT. apply pair_equal_spec in RT as [RT R3]; apply pair_equal_spec in RT as [R1 R2]. rewrite <- R1, <- R2, <- R3. rewrite P2. cbn [rbind].
    assert (VO : getValueOffset (pre ++ enc (tb, body) ++ post) (zlen pre) = Ok (zlen pre + 2)).
    { unfold getValueOffset. rewrite P1. cbn [rbind tlv_of ttag tlen fst snd]. unfold getLengthLen, tag_size. cbn [tsize tag_of].
      replace (127 <? zlen body) with false by lia. f_equal. lia. }
    rewrite VO. cbn [rbind].
    replace (read_all fuel (pre ++ enc (tb, body) ++ post) (zlen pre + 2) (zlen pre + zlen (enc (tb, body))))
      with (Ok cs); [reflexivity|]. symmetry.
    assert (G : forall cs, Forall (fun t => small t -> forall pre bs post fuel, Forall anybyte bs -> octets bs = ber t -> (length bs <= fuel)%nat ->
        read fuel (pre ++ bs ++ post) (zlen pre) = Ok t) cs -> Forall small cs ->
      forall body pre post fuel, Forall anybyte body -> octets body = concat (map ber cs) -> (length body < fuel)%nat ->
      read_all fuel (pre ++ body ++ post) (zlen pre) (zlen pre + zlen body) = Ok cs).
    { clear. induction 1 as [|t cs Ht _ IHcs]; intros Hs body pre post fuel Hb Ho Hf; (destruct fuel as [|fuel]; [lia|]); cbn [read_all].
      - destruct body; [|discriminate Ho]. change (zlen []) with 0. now replace (zlen pre <? zlen pre + 0) with false by lia.
      - inversion_clear Hs as [|? ? Hs1 Hs2]. cbn [map concat] in Ho.
        assert (X : exists b1 b2, body = b1 ++ b2 /\ octets b1 = ber t /\ octets b2 = concat (map ber cs)).
        { exists (firstn (length (ber t)) body), (skipn (length (ber t)) body). split; [symmetry; apply firstn_skipn|].
          unfold octets in *. rewrite <- firstn_map, <- skipn_map, Ho, firstn_app, Nat.sub_diag, firstn_all, skipn_app, skipn_all, Nat.sub_diag.
          cbn [firstn skipn app]. now rewrite app_nil_r. }
        destruct X as (b1 & b2 & -> & X1 & X2). apply Forall_app in Hb as [Hb1 Hb2]. rewrite app_length in Hf.
        assert (T : exists ch, b1 = enc ch /\ simple ch).
        { destruct (small_tb t Hs1) as (A & B & C & D). pose proof X1 as X0. destruct b1 as [|tb [|l b1]]; [destruct t; discriminate X1..|].
          assert (Y : tb mod 256 = tb_of t /\ l mod 256 = zlen (content t) /\ length b1 = length (content t)).
          { unfold octets in X1. destruct t as [c n v|c n cs0]; cbn [ber map tb_of content] in *; apply cons2_inj in X1; destruct X1 as (Y1 & Y2 & Y3); (split; [exact Y1|]).
            - split; [exact Y2|]. now rewrite <- Y3, map_length.
            - split; [unfold zlen; rewrite concat_length; exact Y2|]. now rewrite concat_length, <- Y3, map_length. }
          destruct Y as (Y1 & Y2 & Y3). inversion_clear Hb1 as [|? ? U1 U2]. inversion_clear U2 as [|? ? U3 U4].
          assert (Y4 : zlen b1 = zlen (content t)) by (unfold zlen; now rewrite Y3). pose proof (zlen_nonneg (content t)).
          exists (tb, b1). unfold enc, simple. cbn [fst snd]. unfold ubyte, anybyte in *. split; [f_equal; f_equal; lia|]. split; [exact U1|]. split; lia. }
        destruct T as (ch & -> & Sc). pose proof (enc_length ch) as EL. pose proof (zlen_nonneg (snd ch)). pose proof (zlen_nonneg b2).
        rewrite zlen_app. replace (zlen pre <? _) with true by lia. rewrite <- app_assoc.
        destruct (parse_child pre ch (b2 ++ post) Sc) as [_ PL]. rewrite PL. cbn [rbind].
        rewrite (Ht Hs1 pre (enc ch) (b2 ++ post) fuel Hb1 X1) by lia. cbn [rbind].
        pose proof (IHcs Hs2 b2 (pre ++ enc ch) post fuel Hb2 X2) as Q. rewrite !zlen_app, <- !app_assoc in Q.
        replace (zlen pre + (zlen (enc ch) + zlen b2)) with (zlen pre + zlen (enc ch) + zlen b2) by lia. rewrite Q; [reflexivity|].
        unfold zlen in EL. lia. }
    specialize (G cs IH F body (pre ++ [tb; zlen body]) post fuel Hb3 O3).
    rewrite enc_length. cbn [snd]. rewrite zlen_app in G. change (zlen [tb; zlen body]) with 2 in G. rewrite <- app_assoc in G.
    replace (zlen pre + (2 + zlen body)) with (zlen pre + 2 + zlen body) by lia. apply G. cbn [length] in Hf. lia.
Qed.

Lemma C98_read_partial_pf : forall t pre bs post fuel, small t -> Forall anybyte bs -> octets bs = ber t ->
  (length bs <= fuel)%nat -> read fuel (pre ++ bs ++ post) (zlen pre) = Ok t.
Proof. intros t pre bs post fuel H. now apply read_ok. Qed.

Lemma C98_roundtrip_partial_pf : forall t off out fuel, small t -> 0 <= off -> off + zlen (ber t) <= zlen out ->
  (length (ber t) <= fuel)%nat -> roundtrip fuel t off out = Ok t.
Proof.
  intros t off out fuel H H0 H1 Hf. destruct (C98_build_partial_pf t H) as (obj & E & _ & W). unfold roundtrip. rewrite E. cbn [rbind].
  destruct (W off out H0 H1) as (bs & O & Ha & ->). assert (Lb : length bs = length (ber t)) by (rewrite <- O; unfold octets; now rewrite map_length).
  unfold splice.
  assert (Lp : zlen (firstn (Z.to_nat off) (map s1 out)) = off).
  { unfold zlen in *. rewrite firstn_length, map_length. lia. }
  rewrite <- Lp at 3. apply read_ok; auto. lia.
Qed.

Lemma concat_encs cs : Forall small cs -> concat (map cells cs) = encs (map (fun t => (twos 1 (tb_of t), content t)) cs)
  /\ Forall simple (map (fun t => (twos 1 (tb_of t), content t)) cs).
Proof.
  induction 1 as [|t cs H _ [IH1 IH2]]; [split; [reflexivity|constructor]|]. cbn [map concat]. split.
  - rewrite encs_cons, IH1, cells_eq. reflexivity.
  - constructor; [now apply small_simple|exact IH2].
Qed.

Lemma C98_find_partial_pf : forall c n cs obj c' k n' g fuel, small (Node c n cs) -> build (Node c n cs) = Ok obj ->
  0 <= c' <= 3 -> 0 <= n' <= 30 -> tag_object c' k n' = Ok g -> (length cs < fuel)%nat ->
  findBound fuel obj (Some g) = match find (has_root c' k n') cs with
    | Some ch => rmap Some (build ch)
    | None => Ok None
    end.
Proof.
  intros c n cs obj c' k n' g fuel H E Hc Hn Hg Hf. rewrite build_ok in E by assumption.
  assert (Eo : obj = tlv_of (tb_of (Node c n cs), content (Node c n cs))) by congruence. subst obj. clear E.
  rewrite tag_object_ok in Hg by assumption. assert (Eg : g = tag_of (64 * c' + (if k then 32 else 0) + n')) by congruence. subst g. clear Hg.
  assert (F : Forall small cs) by (apply all_small; cbn [small] in H; tauto).
  destruct (concat_encs cs F) as [C1 C2].
  destruct (C44_partial_pf _ (tlv_of (tb_of (Node c n cs), content (Node c n cs))) (tag_of (64 * c' + (if k then 32 else 0) + n')) fuel C2) as [Q _];
    [cbn [tlv_of tval snd content]; now rewrite C1|cbn [tlv_of tlen snd content]; now rewrite C1|now rewrite map_length|].
  rewrite Q. clear Q C1 C2 Hf H. induction F as [|t cs Ht _ IH]; [reflexivity|]. cbn [map find].
  replace (has_tag _ (twos 1 (tb_of t), content t)) with (has_root c' k n' t).
  - destruct (has_root c' k n' t); [|exact IH]. rewrite build_ok by assumption. cbn [option_map rmap]. unfold tlv_of. cbn [fst snd].
    destruct (tag_of_fields t Ht) as [-> _]. do 3 f_equal.
    destruct (small_tb t Ht) as (A & _). destruct (twos1_any _ A) as (_ & E & _). unfold ubyte in A.
    rewrite !bit5, (land_mod256 (twos 1 (tb_of t))), (land_mod256 (tb_of t)), E, (Z.mod_small (tb_of t)) by lia. reflexivity.
  - rewrite has_tag_eqb. cbn [fst]. destruct (tag_of_fields t Ht) as [-> RT]. unfold has_root. rewrite RT.
    set (x := tag_of (tb_of t)). unfold tag_eqb. unfold tag_of at 1 2 3. cbn [tclass tconstr tnumber].
    assert (B : Z.testbit (64 * c' + (if k then 32 else 0) + n') 5 = k).
    { destruct (small_tb (if k then Node c' n' [] else Leaf c' n' [])) as (_ & _ & _ & D); [destruct k; cbn; repeat split; auto; try lia|].
      destruct k; cbn [tb_of] in D; [exact D|]. rewrite Z.add_0_r. exact D. }
    rewrite B. replace ((64 * c' + (if k then 32 else 0) + n') mod 256 / 64) with c' by (destruct k; lia).
    replace ((64 * c' + (if k then 32 else 0) + n') mod 32) with n' by (destruct k; lia). reflexivity.
Qed.

Lemma C98_full_refuted_pf : ~ C98_full.
Proof.
  intros H. destruct (H (Node 0 1 [Leaf 0 1 (repeat 0 128)])) as (room & Q).
  { cbn [is_tree]. assert (Forall ubyte (repeat 0 128)); [|repeat split; auto; lia]. repeat constructor; unfold ubyte; lia. }
  specialize (Q 0 (repeat 0 (Z.to_nat room)) (S (Z.to_nat room)) ltac:(lia)).
  assert (E : roundtrip (S (Z.to_nat room)) (Node 0 1 [Leaf 0 1 (repeat 0 128)]) 0 (repeat 0 (Z.to_nat room)) = Err NameError) by reflexivity.
  rewrite E in Q. clear - Q. assert (X : Err NameError = Ok (Node 0 1 [Leaf 0 1 (repeat 0 128)])); [|discriminate X].
  apply Q; unfold zlen; rewrite ?repeat_length; lia.
Qed.
