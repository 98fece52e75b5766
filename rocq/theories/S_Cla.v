(** * C121: the class byte of ISO 7816-4, section 5.4.1 (Tables 2 and 3) *)
From Verif Require Import Py.

(** first interindustry classes 000x xxxx: chaining b5, secure messaging b4 b3, channel b2 b1;
    further interindustry classes 01xx xxxx: secure messaging b6, chaining b5, channel
    4 + b4 b3 b2 b1.  The rest is proprietary (b8 = 1) or reserved. *)
Record cla_info : Set := mkCla { ci_chaining : bool; ci_secure : bool; ci_channel : Z }.
Definition iso_cla (c : Z) : option cla_info :=
  if (0 <=? c) && (c <? 32) then
    Some (mkCla (16 <=? c) (negb ((c / 4) mod 4 =? 0)) (c mod 4))
  else if (64 <=? c) && (c <? 128) then
    Some (mkCla (16 <=? c mod 32) (96 <=? c) (4 + c mod 16))
  else None.

From Verif Require Import M_apdu M_world M_cla.
(** C121: the queries on a new APDU decode its class byte (given as a signed or unsigned
    byte) as ISO 7816-4 says. *)
Definition C121_full : Prop := forall h b s tr w cla, newAPDU b = Ok s -> nth_error b 0 = Some cla -> -128 <= cla <= 255 ->
  wrun (h ++ [WNew b]) world0 = (tr, w) ->
  isISOInterindustryCLA s = Ok (cla mod 256 <? 128)
  /\ forall i, iso_cla (cla mod 256) = Some i ->
       isCommandChainingCLA s = Ok (ci_chaining i)
       /\ truth (isSecureMessagingCLA s) = ci_secure i
       /\ getCLAChannel w = Ok (ci_channel i).
