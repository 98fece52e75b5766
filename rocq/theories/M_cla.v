(** * The methods of APDU whose body is [pass], and its constants: pythoncard/framework/apdu.py *)
From Verif Require Import Py M_apdu M_world.

(** A method whose body is [pass] returns None: [None] here; in a condition None is False. *)
Definition truth (v : option bool) : bool := match v with Some b => b | None => false end.
(** apdu.py:266-267 *)
Definition isSecureMessagingCLA (s : apdu) : option bool := None.
(** apdu.py:157-158, 202-203, 258-260 *)
Definition getNAD (s : apdu) : option Z := None.
Definition setoutgoingNoChaining (s : apdu) : option Z := None.
Definition waitExtension : option Z := None.

(** apdu.py:46-53 *)
Definition PROTOCOL_MEDIA_CONTACTLESS_TYPE_A := 0.
Definition PROTOCOL_MEDIA_CONTACTLESS_TYPE_B := 1.
Definition PROTOCOL_MEDIA_DEFAULT := 2.
Definition PROTOCOL_MEDIA_MASK := 3.
Definition PROTOCOL_MEDIA_USB := 4.
Definition PROTOCOL_T0 := 5.
Definition PROTOCOL_T1 := 6.
Definition PROTOCOL_TYPE_MASK := 7.
