(** * C124: TLV objects that have not been initialised; C49 for all arguments: proofs *)
From Verif Require Import Py S_Base S_TlvLife L_Py M_utils M_util L_util M_bertag M_bertlv M_tlvlife LP_bertlv.
From Coq Require Import ZifyBool ZifyNat.


Lemma C124_refuted_pf : forall k off out,
  tlv_size (newTLV k) = Err AttributeError
  /\ tlv_toBytes (newTLV k) off out = (Err AttributeError, out)
  /\ getValue (newTLV k) off out = (Ok 0, out)
  /\ getTag (newTLV k) = None /\ getLengthBound (newTLV k) = 0
  /\ (forall fuel g, (0 < fuel)%nat -> findBound fuel (newTLV k) g = Ok None).
Proof.
  intros k off out. split; [reflexivity|]. split; [reflexivity|]. split; [reflexivity|]. split; [reflexivity|].
  split; [reflexivity|]. intros [|fuel] [g|] Hf; try lia; reflexivity.
Qed.

Lemma C124_full_refuted_pf : ~ C124_full.
Proof. intros F. destruct (F true 0 []) as [H _]. discriminate. Qed.

Lemma lstep_bytes b o n t : snd ((x <- init_bytes b o n ;; ret (Some x)) t) = t.
Proof.
  pose proof (C48_refuted_pf b o n t) as E. unfold bind, ret. destruct (init_bytes b o n t) as [[x|e] t']; exact E.
Qed.

Lemma C124_partial_pf : forall k h, Forall (fun c => inits c = false) h ->
  let t := lrun h (newTLV k) in
  getTag t = None /\ tlv_size t = Err AttributeError
  /\ (forall off out, tlv_toBytes t off out = (Err AttributeError, out))
  /\ (forall self, append t self = (Err AttributeError, self))
  /\ (k = true -> t = newTLV k /\ forall a, exists e, append a t = (Err e, t)).
Proof.
  intros k h F t.
  assert (AE : forall a s, tval s = None -> exists e, append a s = (Err e, s)).
  { intros a s Hv. unfold append. unfold bind at 1, lift. destruct (tlv_size a); [|eauto].
    unfold bind at 1. destruct (tlv_toBytes a 0 _) as [[n|e] arr]; [|eauto].
    unfold bind at 1, get. rewrite Hv. unfold raise. eauto. }
  assert (I : ttag t = None /\ tkind t = k /\ (k = true -> t = newTLV k)).
  { unfold t. clear t. induction h as [|c h IH] using rev_ind; [auto|].
    apply Forall_app in F as [F1 F2]. inversion F2; subst. destruct (IH F1) as (I1 & I2 & I3).
    unfold lrun. rewrite fold_left_app. cbn [fold_left]. change (fold_left _ h (newTLV k)) with (lrun h (newTLV k)).
    set (t0 := lrun h (newTLV k)) in *.
    destruct c as [g v o n|b o n|a|v o n]; cbn [inits] in *; [discriminate| | |]; cbn [lstep].
    - rewrite lstep_bytes. auto.
    - destruct (tkind t0) eqn:Ek; [|cbn [snd]; rewrite Ek; auto]. specialize (I3 ltac:(congruence)).
      destruct (AE a t0 ltac:(rewrite I3; reflexivity)) as [e E]. unfold bind. rewrite E. cbn [snd]. rewrite Ek. split; [assumption|]. split; [assumption|]. auto.
    - destruct (tkind t0) eqn:Ek; [cbn [snd]; rewrite Ek; auto|]. unfold bind, replaceValue, ret.
      destruct (arrayCopy_into v o 0 n (py_repeat 0 n)) as [[[]|e] w]; cbn [snd ttag tkind]; (split; [assumption|]; split; [congruence|]); congruence. }
  destruct I as (I1 & I2 & I3). split; [assumption|].
  assert (S : tlv_size t = Err AttributeError) by (unfold tlv_size; now rewrite I1).
  split; [assumption|]. split; [intros off out; unfold tlv_toBytes; now rewrite I1|].
  split; [intros self; unfold append, bind, lift; now rewrite S|].
  intros Hk. split; [auto|]. intros a. apply AE. rewrite (I3 Hk). reflexivity.
Qed.

Lemma C124_init_partial_pf : forall k h g v off n,
  lrun (h ++ [LInit g v off n]) (newTLV k)
  = mkTLV k (Some g) n (Some (py_slice v off (off + n))).
Proof.
  intros k h g v off n. unfold lrun. rewrite fold_left_app. cbn [fold_left lstep snd].
  change (fold_left _ h (newTLV k)) with (lrun h (newTLV k)). unfold init_tag. f_equal.
  induction h as [|c h IH] using rev_ind; [reflexivity|].
  unfold lrun. rewrite fold_left_app. cbn [fold_left]. change (fold_left _ h (newTLV k)) with (lrun h (newTLV k)).
  set (t0 := lrun h (newTLV k)) in *. rewrite <- IH. clear IH.
  destruct c as [g' v' o n'|b o n'|a|v' o n']; cbn [lstep]; [reflexivity| | |].
  - now rewrite lstep_bytes.
  - destruct (tkind t0) eqn:Ek; [|exact Ek]. unfold bind at 1, append. unfold bind at 1, lift, ret.
    destruct (tlv_size a); [|exact Ek]. unfold bind at 1. destruct (tlv_toBytes a 0 _) as [[m|e] arr]; [|exact Ek].
    unfold bind at 1, get. destruct (tval t0); [|exact Ek]. unfold bind, put.
    destruct (tlv_size _); exact Ek.
  - destruct (tkind t0) eqn:Ek; [exact Ek|]. unfold bind, replaceValue, ret.
    destruct (arrayCopy_into v' o 0 n' (py_repeat 0 n')) as [[[]|e] w]; exact Ek.
Qed.

Lemma C49_exact_partial_pf : forall fuel a off start ta toff, (0 < fuel)%nat ->
  findNextStatic fuel a off start ta toff
  = match getInstance a off None with
    | Err e => Err e
    | Ok t =>
        match ttag t, tval t with
        | Some g, Some v =>
            if negb (tkind t) then Err AttributeError
            else if start <=? off + tag_size g + getLengthLen (tlen t) then Err NameError
            else if tlen t <=? 0 then Ok (-1)
            else match getInstance v 0 None with Err e => Err e | Ok _ => Err AttributeError end
        | _, _ => Err AttributeError
        end
    end.
Proof.
  intros [|fuel] a off start ta toff Hf; [lia|]. unfold findNextStatic.
  destruct (getInstance a off None) as [t|e] eqn:E; [|reflexivity]. cbn [rbind].
  assert (V : exists g v, ttag t = Some g /\ tval t = Some v).
  { unfold getInstance in E. destruct (getLengthStatic a off); [|discriminate]. cbn [rbind] in E.
    destruct (BERTag_getInstance a off) as [g|]; [|discriminate]. cbn [rbind] in E.
    destruct (getLengthPair _) as [[l x]|]; [|discriminate]. cbn [rbind] in E. inversion E. cbn. eauto. }
  destruct V as (g & v & Eg & Ev). rewrite Eg, Ev. cbn [start_loop]. rewrite Z.add_0_r.
  set (fo := off + tag_size g + getLengthLen (tlen t)).
  destruct (tkind t) eqn:Ek; cbn [negb].
  2:{ destruct (fo <? start); reflexivity. }
  destruct (Z.leb_spec start fo).
  { replace (fo <? start) with false by lia. reflexivity. }
  replace (fo <? start) with true by lia. cbn [find_].
  destruct (Z.leb_spec (tlen t) 0).
  { replace (0 <? tlen t) with false by lia. reflexivity. }
  replace (0 <? tlen t) with true by lia. rewrite Ev.
  destruct (getInstance v 0 None) as [u|e]; [|reflexivity]. cbn [rbind tag_eq_opt].
  destruct (ttag u); reflexivity.
Qed.
