(** * Model of pythoncard/framework/jcsystem.py, service/dispatcher.py and
      pythoncardx/external/memory.py *)
From Verif Require Import Py M_utils M_util.

(** ** jcsystem.py (the transaction functions are in M_util.v) *)

(** the elements of the arrays made here *)
Inductive pyval : Set := VInt (z : Z) | VBool (b : bool) | VNone.

(** [[v for i in range(length)]] *)
Definition comprehension (v : pyval) (length : Z) : list pyval := repeat v (Z.to_nat length).

(** jcsystem.py:28-32: short and byte arrays *)
Definition makeTransientShortArray (length event : Z) : res (list pyval) := Ok (comprehension (VInt 0) length).
Definition makeTransientByteArray := makeTransientShortArray.
(** jcsystem.py:34-36 *)
Definition makeTransientBooleanArray (length event : Z) : res (list pyval) := Ok (comprehension (VBool false) length).
(** jcsystem.py:39-41 *)
Definition makeTransientObjectArray (length event : Z) : res (list pyval) := Ok (comprehension VNone length).

(** jcsystem.py:3-7 *)
Definition ARRAY_TYPE_BOOLEAN := 1.
Definition ARRAY_TYPE_BYTE := 2.
Definition ARRAY_TYPE_SHORT := 3.
Definition ARRAY_TYPE_INT := 4.
Definition ARRAY_TYPE_OBJECT := 5.
(** jcsystem.py:63-72.  NegativeArraySizeException is not defined: NameError. *)
Definition makeGlobalArray (type length : Z) : res (list pyval) :=
  if length <? 0 then Err NameError
  else
    let? val := (if type =? ARRAY_TYPE_BOOLEAN then Ok (VBool false)
                 else if type =? ARRAY_TYPE_BYTE then Ok (VInt 0)
                 else if type =? ARRAY_TYPE_INT then Ok (VInt 0)
                 else if type =? ARRAY_TYPE_OBJECT then Ok VNone
                 else if type =? ARRAY_TYPE_SHORT then Ok (VInt 0)
                 else Err KeyError) in
    Ok (comprehension val length).

(** jcsystem.py:48-50: one argument *)
Definition getAvailableMemory1 (memoryType : Z) : res Z := Ok 32767.
(** jcsystem.py:51-59: three arguments; the state is the buffer, [None] for None.
    NullPointerException and ArrayIndexOutOfBoundsException are not imported:
    NameError.  The method returns None. *)
Definition getAvailableMemory3 (offset memoryType : Z) : M (option (list Z)) unit :=
  fun b => match b with
           | None => (Err NameError, b)
           | Some buffer =>
               match py_set buffer offset 127 with
               | Err _ => (Err NameError, b)
               | Ok buffer => match py_set buffer (offset + 1) 255 with
                              | Err _ => (Err NameError, Some buffer)
                              | Ok buffer => (Ok tt, Some buffer)
                              end
               end
           end.

(** ** dispatcher.py *)

(** dispatcher.py:4-7 *)
Definition PROCESS_NONE := 0.
Definition PROCESS_INPUT_DATA := 1.
Definition PROCESS_COMMAND := 2.
Definition PROCESS_OUTPUT_DATA := 3.
Definition SE_ILLEGAL_PARAM := 1.
Definition SE_DISPATCH_TABLE_FULL := 2.

(** The dictionary services; services are named by numbers (object identities) *)
Record dispatcher : Set := mkDisp { ds_input : list Z; ds_command : list Z; ds_output : list Z; ds_none : list Z }.
(** dispatcher.py:9-15 *)
Definition dispatcher_new (maxServices : Z) : res dispatcher :=
  if maxServices <? 0 then Err (ServiceExc SE_ILLEGAL_PARAM) else Ok (mkDisp [] [] [] []).
(** dispatcher.py:17-23; [None] is None *)
Definition addService (service : option Z) (phase : Z) : M dispatcher unit :=
  match service with
  | None => raise (ServiceExc SE_ILLEGAL_PARAM)
  | Some v =>
      s <- get ;;
      if phase =? PROCESS_INPUT_DATA then put (mkDisp (ds_input s ++ [v]) (ds_command s) (ds_output s) (ds_none s))
      else if phase =? PROCESS_COMMAND then put (mkDisp (ds_input s) (ds_command s ++ [v]) (ds_output s) (ds_none s))
      else if phase =? PROCESS_OUTPUT_DATA then put (mkDisp (ds_input s) (ds_command s) (ds_output s ++ [v]) (ds_none s))
      else if phase =? PROCESS_NONE then put (mkDisp (ds_input s) (ds_command s) (ds_output s) (ds_none s ++ [v]))
      else raise (ServiceExc SE_ILLEGAL_PARAM)
  end.
(** self.services[phase] *)
Definition services (s : dispatcher) (phase : Z) : res (list Z) :=
  if phase =? PROCESS_INPUT_DATA then Ok (ds_input s)
  else if phase =? PROCESS_COMMAND then Ok (ds_command s)
  else if phase =? PROCESS_OUTPUT_DATA then Ok (ds_output s)
  else if phase =? PROCESS_NONE then Ok (ds_none s)
  else Err KeyError.
(** a history of addService calls; those that raise are caught by the client *)
Definition disp_run (h : list (option Z * Z)) (s : dispatcher) : dispatcher :=
  fold_left (fun s c => snd (addService (fst c) (snd c) s)) h s.

(** ** memory.py *)

(** memory.py:7-9 *)
Definition getMemoryAccessInstance (memoryType memorySizeOffset : Z) (memorySize : list Z) : res unit := Err (ExternalExc 1).
