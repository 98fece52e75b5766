(** * The properties that the code violates, in full: C08-C51
    Each [Cxx_full] is the property as stated in properties.jsonl.  They are
    refuted in P_full1.v; the strongest true fragments are the [_partial]
    theorems of the P_ files. *)
From Verif Require Import Py S_Base S_Number S_APDU M_utils M_util M_ownerpin S_OwnerPIN M_aid
  M_apdu S_ApduObs M_bignumber S_BigNumber M_jcint S_BER M_bertag M_bertlv S_TLV.

(** ** Util *)
Definition C05_full : Prop := forall a so do len (h : heap),
  0 <= so -> 0 <= do -> 0 <= len -> so + len <= zlen (h a) -> do + len <= zlen (h a) ->
  sub (snd (arrayCopy a so a do len h) a) (Z.to_nat do) (Z.to_nat len)
  = sub (h a) (Z.to_nat so) (Z.to_nat len).

Definition C06_full : Prop := forall src so dest do len (h h' : heap) e,
  arrayCopy src so dest do len h = (Err e, h') -> h' dest = h dest.

Definition C08_full : Prop :=
  (forall src so dest do len (h : heap), so < 0 \/ do < 0 -> 0 < len ->
     fst (arrayCopy src so dest do len h) = Err ArrayIndexOutOfBounds
     /\ forall k, snd (arrayCopy src so dest do len h) k = h k)
  /\ (forall a so b do len, so < 0 \/ do < 0 -> 0 < len -> arrayCompare a so b do len = Err ArrayIndexOutOfBounds)
  /\ (forall off len v a, off < 0 -> 0 < len -> arrayFillNonAtomic off len v a = (Err ArrayIndexOutOfBounds, a))
  /\ (forall a off, off < 0 -> getShort a off = Err ArrayIndexOutOfBounds)
  /\ (forall a off v, off < 0 -> setShort off v a = (Err ArrayIndexOutOfBounds, a)).

Definition C09_full : Prop := forall src so dest do len (h : heap),
  0 <= so -> 0 <= do -> 0 <= len ->
  (so + len <= zlen (h src) -> do + len <= zlen (h dest) ->
     fst (arrayCopyNonAtomic src so dest do len h) = fst (arrayCopy src so dest do len h)
     /\ forall k, snd (arrayCopyNonAtomic src so dest do len h) k = snd (arrayCopy src so dest do len h) k)
  /\ (zlen (h src) < so + len \/ zlen (h dest) < do + len ->
     fst (arrayCopyNonAtomic src so dest do len h) = Err ArrayIndexOutOfBounds).

(** ** OwnerPIN *)
Definition C13_full : Prop := forall p off len s, 0 < triesremaining s -> zlen (thepin s) = maxpinsize s ->
  fst (check p off len s) <> Ok true ->
  triesremaining (snd (check p off len s)) = triesremaining s - 1 /\ validated (snd (check p off len s)) = false.

Definition C14_full : Prop := forall s p off len c coff clen,
  zlen (thepin s) = maxpinsize s -> proper (maxpinsize s) p off len -> proper (maxpinsize s) c coff clen ->
  let s1 := snd (update p off len s) in
  fst (update p off len s) = Ok tt -> 0 < triesremaining s1 ->
  (fst (check c coff clen s1) = Ok true <->
   sub (pin_cells p) (Z.to_nat off) (Z.to_nat len) = sub (pin_cells c) (Z.to_nat coff) (Z.to_nat clen)).

Definition C15_full : Prop := forall p off len s s', update p off len s = (Ok tt, s') -> fst (isValidated s') = Ok false.

(** ** AID *)
Definition C20_full : Prop := forall (a dest : list Z) aoff off len,
  let n := if len =? 0 then zlen a - aoff else len in
  0 <= aoff <= zlen a -> 0 <= off -> 0 <= len -> aoff + n <= zlen a -> off + n <= zlen dest ->
  getPartialBytes a aoff off len dest
  = (Ok n, splice dest (Z.to_nat off) (sub a (Z.to_nat aoff) (Z.to_nat n))).

Definition C21_full : Prop := forall b off len a, newAID b off len = Ok a -> 5 <= zlen a <= 16.

(** ** APDU *)
Definition C24_full : Prop := forall raw c, wf_command c -> is_short c = false -> encodes raw c ->
  exists s, newAPDU raw = Ok s /\ decoded_as s (zlen (command_data c)) (command_le c) 7.

Definition C26_full : Prop := forall raw s ops tr s', newAPDU raw = Ok s -> apdu_run ops s = (tr, s') ->
  Forall (fun x => match x with
    | ((OpSetIncomingAndReceive | OpReceiveBytes _), Ok (Some n)) => 0 <= n <= 128
    | _ => True
    end) tr.

Definition C28_full : Prop := forall raw s ops tr s', newAPDU raw = Ok s -> apdu_run ops s = (tr, s') ->
  ((exists n, In (OpSetOutgoing, Ok n) tr) ->
     illegal setIncomingAndReceive s' /\ (forall b, illegal (receiveBytes b) s') /\ illegal setOutgoing s')
  /\ ((exists n, In (OpSetIncomingAndReceive, Ok n) tr) -> illegal setIncomingAndReceive s')
  /\ ((exists n r, In (OpSetOutgoingLength n, Ok r) tr) -> forall m, illegal (setOutgoingLength m) s')
  /\ (~ (exists n r, In (OpSetOutgoingLength n, Ok r) tr) -> ~ (exists b n r, In (OpSetOutgoingAndSend b n, Ok r) tr) ->
     (forall b n, illegal (sendBytes b n) s') /\ (forall d b n, illegal (sendBytesLong d b n) s')).

(** the cells of a successful send *)
Definition sent_now (x : apdu_op * res (option Z)) : Z :=
  match x with
  | ((OpSendBytes _ n | OpSendBytesLong _ _ n | OpSetOutgoingAndSend _ n), Ok _) => n
  | _ => 0
  end.
Definition C29_full : Prop := forall raw s ops tr s' n, newAPDU raw = Ok s ->
  apdu_run ops s = (tr, s') -> (forall m r, In (OpSetOutgoingLength m, Ok r) tr -> m = n) ->
  (exists r, In (OpSetOutgoingLength n, Ok r) tr) -> ~ (exists b m, In (OpSetOutgoingAndSend b m) ops) ->
  fold_right Z.add 0 (map sent_now tr) <= n
  /\ (forall c e, wf_command c -> encodes raw c -> command_le c = Some e -> n <= e).

Definition C30_full : Prop := forall raw s ops tr s', newAPDU raw = Ok s -> apdu_run ops s = (tr, s') ->
  isISOInterindustryCLA s' = isISOInterindustryCLA s /\ isCommandChainingCLA s' = isCommandChainingCLA s.

Definition C31_full : Prop := forall raw, 4 <= zlen raw -> Forall anybyte raw ->
  ~ (exists c, wf_command c /\ encodes raw c) ->
  exists s, newAPDU raw = Ok s /\ setIncomingAndReceive s = (Err (ISOExc SW_WRONG_LENGTH), s).

(** ** BigNumber *)
Definition C34_full : Prop := forall mb v a off len fmt, range_ok a off len fmt -> 0 <= v ->
  v < range_value a off len fmt -> fst (subtract a off len fmt (mkBig mb (Some v))) = Err Arithmetic.

Definition C35_full : Prop := forall a off len s, 0 <= off -> 0 < len -> off + len <= zlen a ->
  (exists b, In b (sub a (Z.to_nat off) (Z.to_nat len)) /\ (9 < (b mod 256) / 16 \/ 9 < b mod 16)) ->
  fst (init (Some a) off len 1 s) = Err Arithmetic.

Definition C36_full : Prop := forall m s v a off len fmt, newBigNumber (Some m) = Ok s -> 0 <= v -> range_ok a off len fmt ->
  let w := range_value a off len fmt in
  (256 ^ m <= w -> fst (init a off len fmt s) = Err Arithmetic)
  /\ (256 ^ m <= v + w -> fst (add a off len fmt (mkBig (Some m) (Some v))) = Err Arithmetic)
  /\ (256 ^ m <= v * w -> fst (multiply a off len fmt (mkBig (Some m) (Some v))) = Err Arithmetic).

Definition C37_full : Prop := forall o s e s', big_step o s = (Err e, s') -> s' = s.

(** ** JCint *)
Definition C38_full : Prop := forall a off hi lo, 0 <= off -> off + 4 <= zlen a ->
  -32768 <= hi <= 32767 -> -32768 <= lo <= 32767 ->
  let v := hi * 65536 + lo mod 65536 in
  exists bs a', setInt off hi lo a = (Ok (off + 4), a')
    /\ a' = splice a (Z.to_nat off) bs /\ length bs = 4%nat /\ Forall sbyte bs
    /\ twos 4 (digits_value 256 (map (fun b => b mod 256) bs)) = v
    /\ getInt a' off = Ok v /\ makeInt2 hi lo = v.

(** ** BER tags and TLVs *)
Definition C40_full : Prop := forall c k n os arr off, identifier c k n os -> 0 <= c <= 3 -> 0 <= off ->
  octets (sub arr (Z.to_nat off) (length os)) = os ->
  (exists t, BERTag_getInstance arr off = Ok t /\ tag_size t = zlen os)
  /\ tag_size (init_class_number (if k then newConstructedBERTag else newPrimitiveBERTag) c n) = zlen os.

Definition C41_full : Prop := forall c k n sz os off out j, identifier c k n os -> 0 <= c <= 3 ->
  0 <= off -> off + zlen os <= zlen out ->
  (j < length out)%nat -> (Z.of_nat j < off \/ off + zlen os <= Z.of_nat j) ->
  nth j (snd (tag_toBytes (mkTag c k n sz) off out)) 0 = nth j out 0.

(** the octets of a TLV: identifier, length, value *)
Definition is_tlv (c : Z) (k : bool) (n : Z) (v bs : list Z) : Prop :=
  0 <= c <= 3 /\ exists io lo, identifier c k n io /\ length_octets (zlen v) lo /\ bs = io ++ lo ++ v.
(** the object is that TLV *)
Definition shows (t : tlv) (c : Z) (k : bool) (n : Z) (v : list Z) : Prop :=
  tkind t = k /\ (exists g, ttag t = Some g /\ tclass g = c /\ tconstr g = k /\ tnumber g = n)
  /\ tlen t = zlen v /\ exists w, tval t = Some w /\ octets w = v.

Definition C42_full : Prop := forall c k n v bs arr off, is_tlv c k n v bs -> 0 <= off -> Forall anybyte arr ->
  octets (sub arr (Z.to_nat off) (length bs)) = bs ->
  exists t, getInstance arr off None = Ok t /\ shows t c k n v
    /\ tlv_size t = Ok (zlen bs) /\ getLengthStatic arr off = Ok (zlen bs).

Definition C43_full : Prop := forall c k n v bs arr off t out off', is_tlv c k n v bs -> 0 <= off -> Forall anybyte arr ->
  octets (sub arr (Z.to_nat off) (length bs)) = bs -> getInstance arr off None = Ok t ->
  0 <= off' -> off' + zlen bs <= zlen out ->
  exists ws, octets ws = bs /\ tlv_toBytes t off' out = (Ok (zlen bs), splice out (Z.to_nat off') ws).

(** a child with any tag and any definite length, and its octets *)
Record wchild : Set := mkW { w_c : Z; w_k : bool; w_n : Z; w_v : list Z; w_bs : list Z }.
Definition w_ok (w : wchild) : Prop := is_tlv (w_c w) (w_k w) (w_n w) (w_v w) (w_bs w) /\ Forall ubyte (w_v w).
Definition w_has (g : tag) (w : wchild) : bool :=
  (w_c w =? tclass g) && Bool.eqb (w_k w) (tconstr g) && (w_n w =? tnumber g).
Definition w_shows (r : option tlv) (w : option wchild) : Prop :=
  match r, w with
  | None, None => True
  | Some t, Some w => shows t (w_c w) (w_k w) (w_n w) (w_v w)
  | _, _ => False
  end.

Definition C44_full : Prop := forall ws self g, Forall w_ok ws ->
  tval self = Some (concat (map w_bs ws)) -> tlen self = zlen (concat (map w_bs ws)) ->
  (exists fuel r, findBound fuel self (Some g) = Ok r /\ w_shows r (find (w_has g) ws))
  /\ (exists fuel r, findBound fuel self None = Ok r /\ w_shows r (hd_error ws)).

(** already false of children with one-byte tags and short lengths *)
Definition C45_full : Prop := forall cs self g ga va aTLV n, Forall simple cs ->
  tval self = Some (encs cs) -> tlen self = zlen (encs cs) ->
  ttag aTLV = Some ga -> tval aTLV = Some va -> 1 <= n ->
  exists fuel, findNextBound fuel self g aTLV n
  = Ok (match after (fun ch => has_tag ga ch && list_eqb (snd ch) va) cs (Z.to_nat n) with
        | None => None
        | Some rest => option_map tlv_of (match g with Some g => find (has_tag g) rest | None => hd_error rest end)
        end).

Definition C46_full : Prop := forall self g, exists fuel, findBound fuel self g <> Err OutOfFuel.

(** a child of any tag built by init(class, number) or parsed; its shortest
    encoding is appended *)
Definition C47_full : Prop := forall (g : tag) io lo v kc self P, 0 <= tclass g <= 3 ->
  identifier (tclass g) (tconstr g) (tnumber g) io -> length_octets (zlen v) lo -> min_len_octets (zlen v) (zlen lo) ->
  Forall sbyte v -> tval self = Some P ->
  exists r self' bs, append (mkTLV kc (Some g) (zlen v) (Some v)) self = (Ok r, self')
    /\ octets bs = io ++ lo ++ octets v /\ tval self' = Some (P ++ bs)
    /\ tlen self' = tlen self + zlen bs /\ ttag self' = ttag self.

Definition C48_full : Prop := forall c k n v bs arr off self, is_tlv c k n v bs -> 0 <= off -> Forall anybyte arr ->
  octets (sub arr (Z.to_nat off) (length bs)) = bs -> tkind self = k ->
  exists r self', init_bytes arr off (zlen bs) self = (Ok r, self') /\ shows self' c k n v.

(** already false of children with one-byte tags and short lengths; the start is
    the offset of a child *)
Definition C49_full : Prop := forall pre tb l1 ch rest post ta toff g, simple (tb, encs (l1 ++ ch :: rest)) ->
  Z.testbit tb 5 = true -> Forall simple (l1 ++ ch :: rest) -> BERTag_getInstance ta toff = Ok g ->
  let arr := pre ++ enc (tb, encs (l1 ++ ch :: rest)) ++ post in
  let start := zlen pre + 2 + zlen (encs l1) in
  exists fuel r, findNextStatic fuel arr (zlen pre) start (Some ta) toff = Ok r
    /\ ((r = -1 /\ Forall (fun c => has_tag g c = false) rest)
        \/ exists l2 ch2 l3, rest = l2 ++ ch2 :: l3 /\ Forall (fun c => has_tag g c = false) l2
             /\ has_tag g ch2 = true /\ r = start + zlen (enc ch) + zlen (encs l2)).

Definition C51_full : Prop := forall t v off n out toff, 0 <= n ->
  (0 <= off -> off + n <= zlen v -> 0 <= toff -> toff + n <= zlen out ->
     let '(r, t') := replaceValue v off n t in
     r = Ok tt /\ getValue t' toff out = (Ok n, splice out (Z.to_nat toff) (sub v (Z.to_nat off) (Z.to_nat n))))
  /\ (forall e t', replaceValue v off n t = (Err e, t') -> t' = t).
