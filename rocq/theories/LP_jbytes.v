(** * C137: byte arrays stay byte arrays: proofs *)
From Verif Require Import Py S_Base S_Key S_Cipher L_Py M_utils M_util M_aid M_apdu M_bignumber M_jcint M_bertag M_bertlv M_system M_digest M_des M_key M_cipher.
From Verif Require Import L_utils L_util LP_bertag LP_des LP_tdes LP_cipher LP_desx S_Bytes.
From Coq Require Import Lia Bool ZifyBool ZifyNat.
Ltac Zify.zify_post_hook ::= Z.div_mod_to_equations.

(** every cell keeps [P] *)
Definition kp {A} (P : Z -> Prop) (m : M (list Z) A) : Prop := forall a, Forall P a -> Forall P (snd (m a)).
Lemma kp_ret {A} P (x : A) : kp P (ret x).
Proof. intros a F. exact F. Qed.
Lemma kp_raise {A} P e : kp P (@raise _ A e).
Proof. intros a F. exact F. Qed.
Lemma kp_lift {A} P (r : res A) : kp P (lift r).
Proof. intros a F. exact F. Qed.
Lemma kp_bind {A B} P (m : M (list Z) A) (f : A -> M (list Z) B) : kp P m -> (forall x, kp P (f x)) -> kp P (bind m f).
Proof. intros H K a F. unfold bind. specialize (H a F). destruct (m a) as [[x|e] a']; [now apply K|exact H]. Qed.
Lemma kp_get {A} P (f : list Z -> M (list Z) A) : (forall a, Forall P a -> Forall P (snd (f a a))) -> kp P (bind get f).
Proof. intros H a F. unfold bind, get. now apply H. Qed.
Lemma Forall_upd (P : Z -> Prop) a : forall k v, Forall P a -> P v -> Forall P (list_upd a k v).
Proof. induction a as [|x a IH]; intros [|k] v F V; cbn [list_upd]; inversion F; subst; auto. Qed.
Lemma py_set_P (P : Z -> Prop) a i v a' : Forall P a -> P v -> py_set a i v = Ok a' -> Forall P a'.
Proof. intros F V. unfold py_set. destruct (py_index _ _); [|discriminate]. intros E. assert (a' = list_upd a n v) as -> by congruence. now apply Forall_upd. Qed.
Lemma py_get_P (P : Z -> Prop) a i v : Forall P a -> py_get a i = Ok v -> P v.
Proof. intros F G. rewrite Forall_forall in F. apply F. now apply py_get_In in G. Qed.
Lemma kp_aset (P : Z -> Prop) i v : P v -> kp P (aset i v).
Proof. intros V a F. unfold aset. destruct (py_set a i v) as [a'|e] eqn:E; [|exact F]. now apply (py_set_P P a i v). Qed.
Lemma kp_aget P i : kp P (aget i).
Proof. intros a F. exact F. Qed.
Lemma kp_loop P (body : Z -> M (list Z) unit) : (forall i, kp P (body i)) -> forall n i, kp P (for_loop n i body).
Proof. intros H n. induction n as [|n IH]; intros i; cbn [for_loop]; [apply kp_ret|]. apply kp_bind; [apply H|]. intros _. apply IH. Qed.
Lemma kp_range P a b (body : Z -> M (list Z) unit) : (forall i, kp P (body i)) -> kp P (for_range a b body).
Proof. intros H. unfold for_range. now apply kp_loop. Qed.
Lemma kp_catch {A} P (m : M (list Z) A) e : kp P m -> kp P (catch_index m e).
Proof. intros H a F. specialize (H a F). unfold catch_index. destruct (m a) as [[x|[]] a']; exact H. Qed.
Lemma Forall_firstn (P : Z -> Prop) n : forall l, Forall P l -> Forall P (firstn n l).
Proof. induction n as [|n IH]; intros [|x l] F; cbn; auto. inversion F; subst. auto. Qed.
Lemma Forall_skipn (P : Z -> Prop) n : forall l, Forall P l -> Forall P (skipn n l).
Proof. induction n as [|n IH]; intros [|x l] F; cbn; auto. inversion F; subst. auto. Qed.
Lemma Forall_slice (P : Z -> Prop) l a b : Forall P l -> Forall P (py_slice l a b).
Proof. intros F. unfold py_slice. now apply Forall_firstn, Forall_skipn. Qed.
Lemma Forall_slice_set (P : Z -> Prop) l a b v : Forall P l -> Forall P v -> Forall P (py_slice_set l a b v).
Proof. intros F V. unfold py_slice_set. apply Forall_app. split; [now apply Forall_firstn|]. apply Forall_app. split; [exact V|now apply Forall_skipn]. Qed.
Lemma Forall_zeros n : jbytes (py_repeat 0 n).
Proof. apply Forall_forall. intros x I. apply repeat_spec in I. subst. unfold sbyte. lia. Qed.
(** the heap *)
Definition kh {A} (m : M heap A) : Prop := forall h, (forall k, jbytes (h k)) -> forall k, jbytes (snd (m h) k).
Lemma kh_bind {A B} (m : M heap A) (f : A -> M heap B) : kh m -> (forall x, kh (f x)) -> kh (bind m f).
Proof. intros H K h F. unfold bind. specialize (H h F). destruct (m h) as [[x|e] h']; [now apply K|exact H]. Qed.
Lemma kh_loop (body : Z -> M heap unit) : (forall i, kh (body i)) -> forall n i, kh (for_loop n i body).
Proof. intros H n. induction n as [|n IH]; intros i; cbn [for_loop]; [intros h F; exact F|]. apply kh_bind; [apply H|]. intros _. apply IH. Qed.
Lemma kh_copy s so d do n : kh (copy_loop s so d do n).
Proof.
  unfold copy_loop, for_range. apply kh_loop. intros i h F k. unfold bind, hget_at. destruct (py_get (h s) (so + i)) as [v|e] eqn:G; [|apply F].
  unfold hset_at. destruct (py_set (h d) (do + i) v) as [a'|e] eqn:E; [|apply F]. cbn [snd]. unfold hset. destruct (Nat.eqb _ _); [|apply F].
  eapply py_set_P; [apply F| |exact E]. eapply py_get_P; [apply F|exact G].
Qed.
Lemma kh_arrayCopy s so d do n : kh (arrayCopy s so d do n).
Proof.
  intros h F k. pose proof (kh_copy s so d do n h F k) as C. unfold arrayCopy, bind, beginTransaction, commitTransaction, abortTransaction, raise, ret.
  destruct (copy_loop s so d do n h) as [[[]|[]] h']; exact C.
Qed.
Lemma kp_into src so do n : jbytes src -> kp sbyte (arrayCopy_into src so do n).
Proof.
  intros S a F. unfold arrayCopy_into. pose proof (kh_arrayCopy 0%nat so 1%nat do n (fun k => match k with O => src | _ => a end)) as H.
  destruct (arrayCopy _ _ _ _ _ _) as [r h]. apply (H ltac:(intros [|k]; assumption) 1%nat).
Qed.
Lemma left_kp {A} ok (m : M (list Z) A) a : kp sbyte m -> left_by ok m a -> jbytes a.
Proof. intros K (a0 & J & _ & ->). now apply K. Qed.

(** tags *)
Lemma list_upd2 {A} (l : list A) : forall k x y, list_upd (list_upd l k x) k y = list_upd l k y.
Proof. induction l as [|z l IH]; intros [|k] x y; cbn [list_upd]; congruence. Qed.
Lemma set_add {A} i v w (k : unit -> M (list Z) A) a : (aset i v ;;; x <- aadd i w ;; k x) a = (x <- aset i (v + w) ;; k x) a.
Proof.
  unfold aadd, bind, aset, aget, py_set, py_get. destruct (py_index (zlen a) i) as [n|] eqn:I; [|reflexivity].
  rewrite !zlen_list_upd, I. pose proof (py_index_lt _ _ _ I) as L. destruct (nth_error (list_upd a n v) n) as [x|] eqn:N.
  - rewrite nth_error_list_upd in N. rewrite Nat.eqb_refl in N. destruct (n <? length a)%nat; [|discriminate]. assert (x = v) as -> by congruence. now rewrite list_upd2.
  - apply nth_error_None in N. rewrite list_upd_length in N. unfold zlen in L. lia.
Qed.
(** a computation that ends with sanitycheck *)
Definition safe {A} (m : M (list Z) A) : Prop := forall a x, Forall anybyte a -> fst (m a) = Ok x -> jbytes (snd (m a)).
Lemma safe_bind {A B} (m : M (list Z) A) (f : A -> M (list Z) B) : kp anybyte m -> (forall x, safe (f x)) -> safe (bind m f).
Proof. intros H K a x F E. unfold bind in *. specialize (H a F). destruct (m a) as [[y|e] a']; [|discriminate]. eapply K; eauto. Qed.
Lemma sanity_any a : Forall anybyte a -> jbytes (map s1 a).
Proof. intros F. unfold jbytes. rewrite Forall_map. eapply Forall_impl; [|exact F]. intros x X. now apply s1_any. Qed.
Lemma safe_sanity {A} (x : A) : safe (sanitycheck ;;; ret x).
Proof. intros a y F E. unfold bind, ret in *. rewrite sanitycheck_map in *. cbn [snd]. now apply sanity_any. Qed.
Lemma chunk_small fuel : forall n l r, Forall (fun c => 0 <= c <= 127) l -> chunk_loop fuel n l = Ok r -> Forall (fun c => 0 <= c <= 127) r.
Proof.
  induction fuel as [|fuel IH]; intros n l r F E; cbn [chunk_loop] in E; [discriminate|]. destruct (0 <? n); [|congruence].
  eapply IH; [|exact E]. apply Forall_app. split; [exact F|]. constructor; [|constructor]. rewrite land_127. lia.
Qed.
Lemma kp_put l : forall o b, Forall (fun c => 0 <= c <= 127) l -> kp anybyte (put_chunks l o b).
Proof.
  induction l as [|c l IH]; intros o b F; cbn [put_chunks]; [apply kp_ret|]. inversion F; subst. intros a J. rewrite set_add.
  revert a J. change (kp anybyte (aset (o + b) (128 + c) ;;; put_chunks l o (b + 1))). apply kp_bind; [apply kp_aset; unfold anybyte; lia|]. auto.
Qed.
Lemma tag_safe g o : a_tag g -> safe (tag_toBytes g o).
Proof.
  intros (C & N) a x F E. unfold tag_toBytes in *. rewrite set_add in *. destruct (Z.leb_spec (tnumber g) 30).
  - rewrite set_add in *. revert a x F E. apply safe_bind; [|intros _; apply safe_sanity].
    apply kp_aset. rewrite !shiftl_mul by lia. unfold anybyte. destruct (tconstr g); lia.
  - rewrite set_add in *. revert a x F E. apply safe_bind; [apply kp_aset; rewrite !shiftl_mul by lia; unfold anybyte; destruct (tconstr g); lia|]. intros _.
    intros a x F E. unfold bind at 1, lift in E. unfold bind at 1, lift. destruct (chunk_loop _ _ _) as [r|e] eqn:R; [|discriminate].
    apply chunk_small in R; [|constructor]. revert a x F E. apply safe_bind; [apply kp_put; now apply Forall_rev|]. intros n.
    apply safe_bind; [apply kp_aget|]. intros y. apply safe_bind; [|intros _; apply safe_sanity]. apply kp_aset. rewrite land_127. unfold anybyte. lia.
Qed.
Lemma sbyte_any a : jbytes a -> Forall anybyte a.
Proof. intros F. eapply Forall_impl; [|exact F]. intros x. unfold sbyte, anybyte. lia. Qed.
Lemma tlv_safe t o a x : byte_tlv t -> jbytes a -> fst (tlv_toBytes t o a) = Ok x -> jbytes (snd (tlv_toBytes t o a)).
Proof.
  intros (G & L & V) J E. unfold tlv_toBytes in *. destruct (ttag t) as [g|]; [|discriminate].
  unfold bind at 1 in E. unfold bind at 1. pose proof (tag_safe g o (G g eq_refl) a) as T. specialize (fun y => T y (sbyte_any a J)).
  destruct (tag_toBytes g o a) as [[n|e] a1]; [|discriminate]. specialize (T n eq_refl). cbn [snd] in T. destruct (127 <? tlen t) eqn:K; [discriminate|].
  revert T. generalize a1. clear E J. change (kp sbyte (aset (o + n) (tlen t) ;;; match tval t with None => raise TypeError | Some v => arrayCopy_into v 0 (o + (n + 1)) (tlen t) end ;;; ret (n + 1 + tlen t))).
  apply kp_bind; [apply kp_aset; unfold sbyte; lia|]. intros _. apply kp_bind; [|intros _; apply kp_ret]. destruct (tval t) as [v|]; [|apply kp_raise].
  apply kp_into. now apply V.
Qed.
(** numbers *)
Lemma digits_bytes enc base : (forall d, sbyte (enc d)) -> forall fuel v l r, jbytes l -> digit_loop fuel base enc v l = Ok r -> jbytes r.
Proof.
  intros H. induction fuel as [|fuel IH]; intros v l r F E; cbn [digit_loop] in E; [discriminate|]. destruct (0 <? v); [|congruence].
  eapply IH; [|exact E]. apply Forall_app. split; [exact F|]. constructor; [apply H|constructor].
Qed.
Lemma to_hex_byte d : sbyte (to_hex d).
Proof. unfold to_hex. rewrite land_255. apply s1_of_mod. Qed.
Lemma toBytes_kp b o n f : kp sbyte (toBytes b o n f) .
Proof.
  intros a J. unfold toBytes. cbv zeta.
  set (r := if f =? FORMAT_BCD then _ else _).
  assert (R : forall l, r = Ok l -> jbytes l).
  { intros l. subst r. destruct (f =? FORMAT_BCD).
    - destruct (value b) as [v|]; [|discriminate]. revert l. generalize (digit_fuel v) as k.
      assert (B : forall k v l r, jbytes l -> digit_loop k 100 to_bcd v l = Ok r -> jbytes r).
      { clear. induction k as [|k IH]; intros v l r F E; cbn [digit_loop] in E; [discriminate|]. destruct (0 <? v); [|congruence].
        eapply IH; [|exact E]. apply Forall_app. split; [exact F|]. constructor; [|constructor].
        unfold to_bcd. rewrite land_255, shiftl_mul by lia. apply s1_any. unfold anybyte. lia. }
      intros k l E. apply (B k v [] l); [constructor|exact E].
    - destruct (f =? FORMAT_HEX); [|discriminate]. destruct (value b) as [v|]; [|discriminate]. intros E. eapply digits_bytes; [apply to_hex_byte|constructor|exact E]. }
  destruct r as [l|e]; [|exact J]. destruct (n <? zlen l); [exact J|]. apply kp_into; [|exact J]. apply Forall_rev, Forall_app. split; [now apply R|apply Forall_zeros].
Qed.
(** APDU *)
Definition bapdu (s : apdu) : Prop := jbytes (buf s) /\ jbytes (raw s).
Lemma kp_cells b x n : jbytes b -> kp sbyte (copy_cells b x n).
Proof.
  intros J. unfold copy_cells. apply kp_range. intros i a F. unfold bind, lift. destruct (py_get b i) as [v|e] eqn:E; [|exact F].
  apply kp_aset; [|exact F]. now apply (py_get_P sbyte b i).
Qed.
Lemma new_bytes b s : jbytes b -> newAPDU b = Ok s -> bapdu s.
Proof.
  intros J E. unfold newAPDU in E. destruct (zlen b <? 4); [discriminate|].
  pose proof (kp_cells b 0 4 J _ (Forall_zeros (255 + 2))) as K1. destruct (copy_cells b 0 4 (py_repeat 0 (255 + 2))) as [[[]|e] b4]; [|discriminate]. cbn [snd] in K1.
  destruct (if 4 <? zlen b then _ else _) as [p3|e]; cbn [rbind] in E; [|discriminate].
  pose proof (kp_cells b OFFSET_LC p3 J _ K1) as K2. destruct (copy_cells b OFFSET_LC p3 b4) as [[[]|e] b5]; [|discriminate]. cbn [snd] in K2.
  assert (G : forall x, Ok x = Ok s -> buf x = b5 -> raw x = b -> bapdu s).
  { intros x Q B R. assert (x = s) by congruence. subst s. unfold bapdu. now rewrite B, R. }
  destruct (zlen b =? 4); [now apply (G _ E)|]. destruct (py_get b 4) as [c|e]; cbn [rbind] in E; [|discriminate].
  destruct (_ || _).
  - destruct (getOutLengths b (zlen b)) as [ol|e]; cbn [rbind] in E; [|discriminate]. now apply (G _ E).
  - destruct (is_type3 b) as [[]|e]; cbn [rbind] in E; [| |discriminate]; (destruct (getInLengths b) as [il|e]; cbn [rbind] in E; [|discriminate]).
    + now apply (G _ E).
    + destruct (getOutLengths b (zlen b)) as [ol|e]; cbn [rbind] in E; [|discriminate]. now apply (G _ E).
Qed.
Definition ka {A} (m : M apdu A) : Prop := forall s, bapdu s -> bapdu (snd (m s)).
Lemma ka_bind {A B} (m : M apdu A) (f : A -> M apdu B) : ka m -> (forall x, ka (f x)) -> ka (bind m f).
Proof. intros H K s F. unfold bind. specialize (H s F). destruct (m s) as [[x|e] s']; [now apply K|exact H]. Qed.
Lemma ka_receive o : ka (receive_block o).
Proof.
  intros s (B & R). unfold receive_block. cbv zeta.
  pose proof (kp_range sbyte 0 (Z.min IN_BLOCKSIZE (zlen (raw s) - offin s - lelength s)) (fun i => v <- lift (py_get (raw s) (offin s + i)) ;; aset (o + i) v)) as K.
  specialize (fun H => K H (buf s) B). destruct (for_range _ _ _ _) as [[u|e] b]; cbn [snd] in *; (split; [apply K|exact R]);
  intros i a F; unfold bind, lift; (destruct (py_get (raw s) (offin s + i)) as [v|e'] eqn:E; [|exact F]); apply kp_aset; auto; now apply (py_get_P sbyte (raw s) (offin s + i)).
Qed.
Lemma ka_out : ka setOutgoing.
Proof. intros s F. unfold setOutgoing, bind, get, raise, put, ret. destruct (_ <=? _); exact F. Qed.
Lemma ka_len n : ka (setOutgoingLength n).
Proof. intros s F. unfold setOutgoingLength, bind, get, raise, put. destruct (_ <? _); [exact F|]. destruct (match Ne s with Some m => m <? n | None => false end); exact F. Qed.
Lemma ka_send src o n : jbytes src -> ka (send_block src o n).
Proof.
  intros S s (B & R). unfold send_block, bind, get, raise, put. destruct (curout s); [|now split]. destruct (_ <? _); [now split|].
  split; [exact B|]. cbn [snd with_out raw]. apply Forall_slice_set; [exact R|]. now apply Forall_slice.
Qed.
Lemma ka_sendBytes o n : ka (sendBytes o n).
Proof. intros s F. unfold sendBytes, bind at 1, get, raise. destruct (_ <? _); [exact F|]. apply ka_send; [apply F|exact F]. Qed.
Lemma ka_step o : byte_op o -> ka (apdu_step o).
Proof.
  intros O s F. destruct o; cbn [apdu_step]; unfold msome, mvoid.
  - revert s F. apply ka_bind; [|intros x s F; exact F]. intros s F. unfold setIncomingAndReceive, bind at 1, get, raise. destruct (negb _); [exact F|]. destruct (broken s); [exact F|]. now apply ka_receive.
  - revert s F. apply ka_bind; [|intros x s F; exact F]. intros s F. unfold receiveBytes, bind at 1, get, raise. destruct (_ || _); [exact F|]. now apply ka_receive.
  - revert s F. apply ka_bind; [apply ka_out|intros x s F; exact F].
  - revert s F. apply ka_bind; [apply ka_len|intros x s F; exact F].
  - revert s F. apply ka_bind; [apply ka_sendBytes|intros x s F; exact F].
  - revert s F. apply ka_bind; [|intros x s F; exact F]. intros s F. unfold sendBytesLong, bind at 1, get, raise. destruct (_ && _); [exact F|]. now apply ka_send.
  - revert s F. apply ka_bind; [|intros x s F; exact F]. unfold setOutgoingAndSend. apply ka_bind; [apply ka_out|]. intros _. apply ka_bind; [apply ka_len|]. intros _. apply ka_sendBytes.
  - pose proof (kp_aset sbyte i v O (buf s) (proj1 F)) as K. destruct (aset i v (buf s)) as [[u|e] b]; [|exact F]. split; [exact K|apply F].
Qed.
Lemma run_bytes ops : forall s, Forall byte_op ops -> bapdu s -> bapdu (snd (apdu_run ops s)).
Proof.
  induction ops as [|o ops IH]; intros s O F; cbn [apdu_run]; [exact F|]. inversion O; subst. pose proof (ka_step o H1 s F) as K.
  destruct (apdu_step o s) as [r s']. specialize (IH s' H2 K). destruct (apdu_run ops s') as [tr s'']. exact IH.
Qed.
Lemma byte_apdu_ok s : byte_apdu s -> bapdu s.
Proof. intros (cmd & s0 & ops & J & E & O & ->). apply run_bytes; [exact O|]. now apply (new_bytes cmd). Qed.
(** crypto *)
Lemma unpad_ubyte b d r : b_pad b = [] -> unpadData b d [] None = Ok r -> Forall ubyte d -> Forall ubyte r.
Proof.
  intros B E D. unfold unpadData in E. destruct (negb (nonempty d)); [assert (r = d) as -> by congruence; exact D|]. cbn [nonempty andb] in E. cbv zeta in E. rewrite B in E. cbn [nonempty] in E.
  destruct (b_padmode b =? PAD_NORMAL); [assert (r = d) as -> by congruence; exact D|]. destruct (b_padmode b =? PAD_PKCS5); [|assert (r = d) as -> by congruence; exact D].
  destruct (py_get d (-1)) as [p|x]; cbn [rbind] in E; [|discriminate]. assert (r = py_slice d 0 (- p)) as -> by congruence. now apply Forall_slice.
Qed.
Lemma engine_ubyte enc alg key iv e data r : des_alg alg -> ewf key (cbase alg key iv) e -> length iv = 8%nat -> Forall ubyte iv -> Forall ubyte data ->
  fst (engine_run enc data e) = Ok r -> Forall ubyte r.
Proof.
  intros Ha W Hl Hu Hd E. assert (HI : iv_ok (desmode alg) iv) by (intro; auto). pose proof (ewf_keylen _ _ _ W) as HK. destruct enc.
  - destruct (bool_dec (alg_pkcs5 alg) false) as [Ep|Ep].
    + destruct (Z.eq_dec (zlen data mod 8) 0) as [Al|Al].
      * destruct (padded_blocks alg data Ha Hd (fun _ => Al)) as (bs & E1 & Hb & Hbu & Hbl & Hpad).
        rewrite (engine_enc key (cbase alg key iv) e data bs W (Hpad key iv) Hb HI) in E. assert (r = concat (e_enc (desmode alg) key iv bs)) as -> by (cbn [cbase b_mode b_iv] in E; congruence).
        apply concat_ubyte. now apply e_enc_blocks.
      * rewrite (engine_short true key alg iv e data W Hl Hu Hd Al) in E; [discriminate|]. intros _. rewrite (padmode_pkcs5 alg Ha), Ep. reflexivity.
    + destruct (padded_blocks alg data Ha Hd) as (bs & E1 & Hb & Hbu & Hbl & Hpad); [intros Q; now rewrite Q in Ep|].
      rewrite (engine_enc key (cbase alg key iv) e data bs W (Hpad key iv) Hb HI) in E. assert (r = concat (e_enc (desmode alg) key iv bs)) as -> by (cbn [cbase b_mode b_iv] in E; congruence).
      apply concat_ubyte. now apply e_enc_blocks.
  - destruct (Z.eq_dec (zlen data mod 8) 0) as [Al|Al].
    + destruct (aligned_blocks data Al Hd) as (bs & -> & Hb & Hbu). rewrite (engine_dec key (cbase alg key iv) e bs W Hb Hbu HI) in E.
      cbn [cbase b_mode b_iv] in E. set (d := concat (e_dec (desmode alg) key iv bs)) in *.
      assert (D : Forall ubyte d).
      { apply concat_ubyte. destruct HK as [K|K]; [rewrite e_dec_des by exact K; now apply mode_dec_blocks|rewrite e_dec_tdes by exact K; now apply t_mode_dec_blocks]. }
      revert E D. clearbody d. clear. apply unpad_ubyte; reflexivity.
    + rewrite (engine_short false key alg iv e data W Hl Hu Hd Al) in E; [discriminate|]. discriminate.
Qed.
Lemma binary_bytes l : Forall ubyte l -> jbytes (binaryToarray l).
Proof. intros F. unfold jbytes, binaryToarray. rewrite Forall_map. eapply Forall_impl; [|exact F]. intros x X. apply s1_any. unfold ubyte, anybyte in *. lia. Qed.
Lemma write_bytes vs : forall i o, Forall ubyte vs -> kp sbyte (write_loop i vs o).
Proof.
  induction vs as [|v vs IH]; intros i o F; cbn [write_loop]; [apply kp_ret|]. inversion F; subst. apply kp_get. intros a J.
  unfold bind at 1, lift. destruct (py_set a (o + i) (s1 v)) as [a'|e] eqn:E; [|exact J]. unfold bind, put. apply IH; [assumption|].
  eapply py_set_P; [exact J| |exact E]. apply s1_any. unfold ubyte, anybyte in *. lia.
Qed.
Lemma binary_u l : Forall ubyte (arrayTobinary l).
Proof. rewrite arrayTobinary_unsigned. apply unsigned_ubyte. Qed.
Lemma getter_kp i part o : (forall p, part = Some p -> jbytes p) -> kp sbyte (rsa_getter i part o).
Proof.
  intros H. unfold rsa_getter. destruct (negb i); [apply kp_raise|]. destruct part as [p|]; [|apply kp_raise].
  apply kp_bind; [apply kp_into; now apply H|]. intros _. apply kp_ret.
Qed.
Definition bpart (x : option (list Z)) : Prop := forall p, x = Some p -> jbytes p.
Definition bpub (k : pubkey) : Prop := bpart (pk_exp k) /\ bpart (pk_mod k).
Definition bpriv (k : privkey) : Prop := bpart (vk_exp k) /\ bpart (vk_mod k).
Lemma pub_setter_b X f : (forall k, bpub k -> bpub (snd (f k))) -> forall k, bpub k -> bpub (snd (pub_setter X f k)).
Proof.
  intros H k B. unfold pub_setter, bind at 1. specialize (H k B). destruct (f k) as [[u|e] k1]; [|exact H]. cbn [snd] in H. clear B f k u.
  unfold bind at 1, get. destruct (pk_mod k1) eqn:M1; [|exact H]. destruct (pk_exp k1) eqn:E1; [|exact H].
  assert (G : bpub (snd ((match pk_the k1 with None => pub_construct X | Some _ => ret tt end) k1))).
  { destruct (pk_the k1); [exact H|]. unfold pub_construct, bind at 1, get, raise. destruct (negb _); [exact H|]. rewrite M1, E1. unfold bind, lift, put.
    destruct (pc_construct _ _ _); [|exact H]. unfold bpub in *. cbn [snd pk_exp pk_mod]. congruence. }
  unfold bind at 1. destruct ((match pk_the k1 with None => pub_construct X | Some _ => ret tt end) k1) as [[u|e] k2]; exact G.
Qed.
Lemma priv_setter_b f : (forall k, bpriv k -> bpriv (snd (f k))) -> forall k, bpriv k -> bpriv (snd (priv_setter f k)).
Proof.
  intros H k B. unfold priv_setter, bind at 1. specialize (H k B). destruct (f k) as [[u|e] k1]; [|exact H]. cbn [snd] in H.
  unfold bind, get, put, ret. destruct (vk_mod k1) eqn:M1, (vk_exp k1) eqn:E1; try exact H. unfold bpriv in *. rewrite M1, E1 in H. exact H.
Qed.
Lemma some_part b x y : jbytes b -> bpart (Some (py_slice b x y)).
Proof. intros J p E. assert (p = py_slice b x y) as -> by congruence. now apply Forall_slice. Qed.
Lemma run_pub_b X h : forall k, Forall byte_setter h -> bpub k -> bpub (run_pub X h k).
Proof.
  unfold run_pub. induction h as [|o h IH]; intros k F B; cbn [fold_left]; [exact B|]. inversion F; subst. apply IH; [assumption|].
  destruct o as [b f l|b f l]; cbn [byte_setter] in *.
  - unfold pub_setExponent. apply pub_setter_b; [|exact B]. intros k1 (P & Q). unfold bind, get, put. split; cbn [snd pk_exp pk_mod]; [now apply some_part|exact Q].
  - unfold pub_setModulus. apply pub_setter_b; [|exact B]. intros k1 (P & Q). unfold bind, get, put, raise. destruct (negb _); [now split|]. split; cbn [snd pk_exp pk_mod]; [exact P|now apply some_part].
Qed.
Lemma run_priv_b h : forall k, Forall byte_setter h -> bpriv k -> bpriv (run_priv h k).
Proof.
  unfold run_priv. induction h as [|o h IH]; intros k F B; cbn [fold_left]; [exact B|]. inversion F; subst. apply IH; [assumption|].
  destruct o as [b f l|b f l]; cbn [byte_setter] in *.
  - unfold priv_setExponent. apply priv_setter_b; [|exact B]. intros k1 (P & Q). unfold bind, get, put. split; cbn [snd vk_exp vk_mod]; [now apply some_part|exact Q].
  - unfold priv_setModulus. apply priv_setter_b; [|exact B]. intros k1 (P & Q). unfold bind, get, put, raise. destruct (negb _); [now split|]. split; cbn [snd vk_exp vk_mod]; [exact P|now apply some_part].
Qed.
Lemma no_part : bpart None.
Proof. intros p E. discriminate. Qed.
Lemma land_any v : anybyte (Z.land v 255).
Proof. rewrite land_255. unfold anybyte. lia. Qed.

Lemma safe_calls ok f a : byte_safe ok f = true -> leaves ok f a -> jbytes a.
Proof.
  intros S L. destruct f; try discriminate S; cbn [leaves byte_safe] in *.
  - destruct L as (s & so & d & do & n & h & l & J & _ & ->). now apply kh_arrayCopy.
  - destruct L as (s & so & d & do & n & h & l & J & _ & ->). pose proof (kh_copy s so d do n h J l) as C. unfold arrayCopyNonAtomic, catch_index.
    destruct (copy_loop s so d do n h) as [[[]|[]] h']; exact C.
  - destruct L as (o & n & v & V & L). revert L. apply left_kp. unfold arrayFillNonAtomic. apply kp_catch, kp_range. intros i. now apply kp_aset.
  - destruct L as (o & v & L). revert L. apply left_kp. unfold setShort. apply kp_catch, kp_bind; [|intros _]; apply kp_aset, s1_any; [|apply land_any].
    rewrite Z.shiftr_land. change (Z.shiftr 65280 8) with 255. apply land_any.
  - destruct L as (o & v & w & L). revert L. apply left_kp. unfold setInt. cbv zeta. repeat (apply kp_bind; [apply kp_aset, s1_any, land_any|intros _]). apply kp_ret.
  - destruct L as (b & o & n & s & p & J & N & L). revert L. apply left_kp. intros x F. unfold getBytes. destruct (_ <? _); [exact F|]. apply Forall_slice_set; [exact F|].
    unfold newAID in N. destruct (_ || _); [discriminate|]. destruct (_ <? _); [discriminate|]. assert (s = py_slice b o (o + n)) as -> by congruence. now apply Forall_slice.
  - destruct L as (s & B & ->). now apply byte_apdu_ok.
  - destruct L as (s & B & ->). now apply byte_apdu_ok.
  - destruct L as (b & o & n & f & L). revert L. apply left_kp, toBytes_kp.
  - subst ok. destruct L as (g & o & G & a0 & J & O & ->). destruct (O eq_refl) as (v & V). eapply tag_safe; [exact G|now apply sbyte_any|exact V].
  - subst ok. destruct L as (t & o & T & a0 & J & O & ->). destruct (O eq_refl) as (v & V). eapply tlv_safe; eauto.
  - destruct L as (t & o & T & L). revert L. apply left_kp. unfold getValue. apply kp_bind; [|intros _; apply kp_ret]. apply kp_into. destruct (tval t) eqn:V; [now apply T|constructor].
  - destruct L as (H & s & b & o & n & p & a0 & U & J & J0 & _ & ->). unfold digest_doFinal. destruct (digest_update b o n s) as [[u|e] s1]; [|exact J0].
    pose proof (kp_catch sbyte _ NameError (write_bytes (hl_digest H (md_alg s1) (md_fed s1)) 0 p (U _ _)) a0 J0) as K.
    destruct (catch_index _ _ _) as [r out]. destruct (digest_reset H s1) as [[u'|e] s2]; [destruct r|]; exact K.
  - destruct L as (t & size & kd & ko & o & J & L). revert L. apply left_kp. unfold setKey. cbn [snd]. unfold getKey. cbn [dk_key dk_size]. apply kp_into, binary_bytes, binary_u.
  - destruct generated; [discriminate|]. destruct L as (X & o & size & h & F & L). revert L. apply left_kp.
    pose proof (run_pub_b X h (pubkey_new size) F (conj no_part no_part)) as P. pose proof (run_priv_b h (privkey_new size) F (conj no_part no_part)) as V.
    destruct P as (P1 & P2), V as (V1 & V2).
    destruct private, exponent; unfold priv_getExponent, priv_getModulus, pub_getExponent, pub_getModulus; apply getter_kp; intros q Q; first [exact (P1 q Q)|exact (P2 q Q)|exact (V1 q Q)|exact (V2 q Q)].
  - destruct L as (alg & k & m & iv & off & c & b & o & n & p & a0 & A & R & J & J0 & _ & ->).
    destruct (reach_cst alg k m iv off c R) as (key & v & _ & _ & _ & EV & C). destruct C as (H1 & H2 & H3 & en & H4 & W).
    assert (LV : length (map unsigned v) = 8%nat).
    { rewrite map_length. pose proof (arrayCopy_into_length iv off 0 8 (py_repeat 0 8)) as Q. rewrite EV in Q. exact Q. }
    destruct (arrayCopy_into b o 0 n (py_repeat 0 n)) as [[[]|e] d] eqn:ED.
    + rewrite (doFinal_eq alg m key (map unsigned v) c en b o n p a0 d H1 H2 H3 H4 W ED). cbv zeta.
      destruct (fst (engine_run (m =? MODE_ENCRYPT) (map unsigned d) en)) as [r|e] eqn:ER; [|exact J0].
      apply engine_ubyte with (alg := alg) (key := key) (iv := map unsigned v) in ER; auto using unsigned_ubyte.
      pose proof (kp_into (binaryToarray r) 0 p (zlen (binaryToarray r)) (binary_bytes r ER) a0 J0) as K. clear ED. destruct (arrayCopy_into (binaryToarray r) 0 p (zlen (binaryToarray r)) a0) as [w out]. exact K.
    + unfold des_doFinal, bind at 1, get. rewrite H2. cbn [negb]. rewrite ED. exact J0.
Qed.
Definition big_n : rsa := mkRsa 4080 4080 4080 0 0 0.
Definition rsx : pycrypto := mkPyCrypto true (fun _ _ => Ok big_n) (fun _ => Ok big_n) (fun _ _ => Ok 4080) (fun _ _ => Ok 4080).
Lemma not_bytes a k : ~ sbyte (nth k a 0) -> ~ jbytes a.
Proof.
  intros N F. apply N. destruct (Nat.lt_ge_cases k (length a)) as [L|L]; [|rewrite nth_overflow by lia; unfold sbyte; lia].
  rewrite <- (Forall_nth sbyte) in F || idtac. unfold jbytes in F. rewrite Forall_forall in F. apply F. now apply nth_In.
Qed.
Ltac jb := repeat constructor; unfold sbyte, ubyte; lia.
Ltac bad := unfold sbyte; cbn; lia.
Lemma unsafe_calls ok f : byte_safe ok f = false -> exists a, leaves ok f a /\ ~ jbytes a.
Proof.
  intros S. destruct f; try discriminate S; cbn [byte_safe leaves] in *.
  - subst ok. exists [223]. split; [|apply (not_bytes _ 0); bad]. exists (mkTag 3 false 31 1), 0. split; [unfold a_tag; cbn; lia|]. exists [0]. split; [jb|]. split; [discriminate|reflexivity].
  - subst ok. exists [223]. split; [|apply (not_bytes _ 0); bad]. exists (mkTLV false (Some (mkTag 3 false 31 1)) 0 (Some [])), 0. split.
    + split; [intros g E; assert (g = mkTag 3 false 31 1) as -> by (cbn in E; congruence); unfold a_tag; cbn; lia|]. split; [cbn; lia|].
      intros v E. assert (v = []) as -> by (cbn in E; congruence). constructor.
    + exists [0]. split; [jb|]. split; [discriminate|reflexivity].
  - exists [32; -32766; 0; -128; 0; 0; 0]. split; [|apply (not_bytes _ 1); bad]. exists [4; 0], 0, 0. split; [jb|]. exists [32; -126; 0; -128; 0; 0; 0]. split; [jb|].
    split; [intros _; eexists; vm_compute; reflexivity|vm_compute; reflexivity].
  - exists [127; 255]. split; [|apply (not_bytes _ 1); bad]. exists 0, 0, [0; 0]. split; [jb|]. split; [intros _; eexists|]; reflexivity.
  - exists [255]. split; [|apply (not_bytes _ 0); bad]. exists (fun _ => 255), 0, 1. split; [intros _; unfold ubyte; lia|]. exists [0]. split; [jb|]. split; [intros _; eexists|]; reflexivity.
  - destruct generated; [|discriminate]. exists [255]. split; [|apply (not_bytes _ 0); bad]. exists rsx, 0.
    exists (mkPair (Some 1) (Some 16) (pubkey_new 16) (privkey_new 16)). eexists. split; [vm_compute; reflexivity|].
    exists [0]. split; [jb|]. destruct private, exponent; (split; [intros _; eexists|]; vm_compute; reflexivity).
  - exists [255]. split; [|apply (not_bytes _ 0); bad].
    exists rsx, [], (mkCipher ALG_RSA_NOPAD true (Some MODE_ENCRYPT) None), (KPub (mkPub 8 true (Some [3]) (Some [5]) (Some big_n))), [9], 0, 1, 0.
    split; [constructor|]. split; [jb|]. exists [0]. split; [jb|]. split; [intros _; eexists|]; vm_compute; reflexivity.
Qed.

Lemma C137_exact_partial_pf : forall ok f, (forall a, leaves ok f a -> jbytes a) <-> byte_safe ok f = true.
Proof.
  intros ok f. split.
  - intros H. destruct (byte_safe ok f) eqn:S; [reflexivity|]. exfalso. destruct (unsafe_calls ok f S) as (a & L & N). exact (N (H a L)).
  - intros S a. now apply safe_calls.
Qed.

Lemma C137_refuted_pf : forall ok f, (exists a, leaves ok f a /\ ~ jbytes a) <-> byte_safe ok f = false.
Proof.
  intros ok f. split; [|apply unsafe_calls]. intros (a & L & N). destruct (byte_safe ok f) eqn:S; [|reflexivity]. exfalso. apply N. now apply (safe_calls ok f).
Qed.

Lemma C137_full_refuted_pf : ~ C137_full.
Proof. intros H. destruct (unsafe_calls true B_generateData eq_refl) as (a & L & N). exact (N (H true _ a L)). Qed.
