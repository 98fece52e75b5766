(** * Importing modules: what Python 3's import system does with the files of the library

    Not a model of a file of /repo but of the statements that run when the modules are
    imported (M_imptab.v holds them, file by file).  Modelled: sys.modules, parents first,
    modules in progress (circular imports), [from p import n] with its fall-back to the
    submodule, a failing module leaving sys.modules.  Not modelled: import hooks, threads,
    the standard library's and pycrypto's own code, [__all__] and star imports (there are
    none), the code under [if __name__ == '__main__']. *)
From Verif Require Import Py M_lookup.
From Coq Require Import String.
Open Scope string_scope.

(** Values, as far as imports tell them apart: a module of the table, the object made by
    the statement of module m that defines n, the attribute n of a module p outside the
    library (n empty: the module itself), None, anything else. *)
Inductive val : Set :=
| VMod (m : string) | VDef (m n : string) | VExt (p n : string) | VNone | VSome.

(** The statements at the top level of a module.  A use is a name followed by attributes. *)
Definition use : Set := string * list string.
Inductive stmt : Set :=
| SBind (n : string) (uses : list use)     (* class, def, assignment: evaluates uses, binds n *)
| SSame (n : string) (u : use)             (* n = a.b.c *)
| SImport (p top : string)                 (* import top.x.y, binding top *)
| SFrom (p n a : string)                   (* from p import n as a *)
| STry (p n a : string).                   (* the same in try, with [except ImportError: a = None] *)

(** A module: its parent package and its name in it, whether it is a package, its body. *)
Record modl : Set := mkMod { m_parent : option (string * string); m_pkg : bool; m_body : list stmt }.
Definition table : Set := list (string * modl).

(** sys.modules with the namespaces of the modules *)
Definition istate : Set := list (string * list (string * val)).
Definition loaded (s : istate) (m : string) : bool := match assoc s m with Some _ => true | None => false end.
Definition bnd (s : istate) (m n : string) : option val :=
  match assoc s m with Some ns => assoc ns n | None => None end.
Definition setattr (m n : string) (v : val) (s : istate) : istate :=
  map (fun e => if String.eqb (fst e) m then (fst e, (n, v) :: snd e) else e) s.
Definition unload (m : string) (s : istate) : istate := filter (fun e => negb (String.eqb (fst e) m)) s.

Inductive iexn : Set := ImportErr | NameErr | AttrErr | NoFuel.
Definition is_import_error (e : iexn) : bool := match e with ImportErr => true | _ => false end.
(** the outcome of a statement, with the state it leaves *)
Inductive oc : Set := Done (s : istate) | Fail (e : iexn) (s : istate).

(** the built-in names the library uses, and those every module has *)
Definition builtin (n : string) : bool := existsb (String.eqb n)
  ["Exception"; "IndexError"; "KeyError"; "NotImplementedError"; "RuntimeWarning"; "TypeError"; "UnicodeEncodeError";
   "ValueError"; "ImportError"; "bool"; "bytes"; "chr"; "classmethod"; "dict"; "enumerate"; "getattr"; "hex"; "int"; "isinstance";
   "len"; "list"; "map"; "min"; "object"; "ord"; "print"; "property"; "range"; "reversed"; "staticmethod"; "str"; "sum";
   "super"; "tuple"; "type"; "zip"; "True"; "False"; "None"; "__name__"; "__doc__"; "__file__"].

(** a.b.c in module m: the global or built-in a, then the attributes; only the attributes
    of modules are looked at *)
Fixpoint attrs (s : istate) (v : val) (l : list string) : val + iexn :=
  match l with
  | [] => inl v
  | a :: l' =>
      match v with
      | VMod q => match bnd s q a with Some v' => attrs s v' l' | None => inr AttrErr end
      | VNone => inr AttrErr
      | _ => attrs s VSome l'
      end
  end.
Definition resolve (s : istate) (m : string) (u : use) : val + iexn :=
  match bnd s m (fst u) with
  | Some v => attrs s v (snd u)
  | None => if builtin (fst u) then attrs s VSome (snd u) else inr NameErr
  end.
Fixpoint resolve_all (s : istate) (m : string) (us : list use) : option iexn :=
  match us with
  | [] => None
  | u :: us' => match resolve s m u with inr e => Some e | inl _ => resolve_all s m us' end
  end.

Definition known (T : table) (m : string) : bool := match assoc T m with Some _ => true | None => false end.
Definition sub_name (p n : string) : string := p ++ "." ++ n.
Definition is_pkg (T : table) (p : string) : bool := match assoc T p with Some e => m_pkg e | None => false end.

(** [from p import n as a] in module m, I being the import of a module *)
Definition from_import (T : table) (ext : string -> bool) (I : string -> istate -> oc) (m p n a : string) (s : istate) : oc :=
  if known T p then
    match I p s with
    | Fail e s1 => Fail e s1
    | Done s1 =>
        match bnd s1 p n with
        | Some v => Done (setattr m a v s1)
        | None =>
            if is_pkg T p && known T (sub_name p n) then
              match I (sub_name p n) s1 with
              | Fail e s2 => Fail e s2
              | Done s2 =>
                  match bnd s2 p n with
                  | Some v => Done (setattr m a v s2)
                  | None => if loaded s2 (sub_name p n) then Done (setattr m a (VMod (sub_name p n)) s2) else Fail ImportErr s2
                  end
              end
            else Fail ImportErr s1
        end
    end
  else if ext p then Done (setattr m a (VExt p n) s) else Fail ImportErr s.

(** one statement of module m; [catch] says which exceptions [except ImportError] catches *)
Definition exec1 (T : table) (ext : string -> bool) (catch : iexn -> bool) (I : string -> istate -> oc) (m : string) (c : stmt) (s : istate) : oc :=
  match c with
  | SBind n us => match resolve_all s m us with Some e => Fail e s | None => Done (setattr m n (VDef m n) s) end
  | SSame n u => match resolve s m u with inr e => Fail e s | inl v => Done (setattr m n v s) end
  | SImport p top =>
      if known T p then
        match I p s with Fail e s1 => Fail e s1 | Done s1 => Done (setattr m top (VMod top) s1) end
      else if ext p then Done (setattr m top (VExt top "") s) else Fail ImportErr s
  | SFrom p n a => from_import T ext I m p n a s
  | STry p n a =>
      if known T p then
        match from_import T ext I m p n a s with
        | Fail e s1 => if catch e then Done (setattr m a VNone s1) else Fail e s1
        | r => r
        end
      else Done (setattr m a (if ext p then VExt p n else VNone) s)
  end.
Fixpoint exec (T : table) (ext : string -> bool) (catch : iexn -> bool) (I : string -> istate -> oc) (m : string) (b : list stmt) (s : istate) : oc :=
  match b with
  | [] => Done s
  | c :: b' => match exec1 T ext catch I m c s with Fail e s1 => Fail e s1 | Done s1 => exec T ext catch I m b' s1 end
  end.

(** import of a module of the table: nothing if it is in sys.modules (even in progress);
    else the parent, then the body on an empty namespace, then the attribute of the parent;
    a failing module is taken out of sys.modules.  The fuel bounds the depth of nested
    imports (Python's recursion limit). *)
Fixpoint imp (T : table) (ext : string -> bool) (catch : iexn -> bool) (fuel : nat) (m : string) (s : istate) : oc :=
  match fuel with
  | O => Fail NoFuel s
  | S f =>
      if loaded s m then Done s
      else match assoc T m with
           | None => Fail ImportErr s
           | Some e =>
               match (match m_parent e with None => Done s | Some (p, _) => imp T ext catch f p s end) with
               | Fail x s1 => Fail x s1
               | Done s1 =>
                   if loaded s1 m then Done s1
                   else match exec T ext catch (imp T ext catch f) m (m_body e) ((m, []) :: s1) with
                        | Fail x s2 => Fail x (unload m s2)
                        | Done s2 => Done (match m_parent e with None => s2 | Some (p, n) => setattr p n (VMod m) s2 end)
                        end
               end
           end
  end.

(** a program that imports one module after the other *)
Fixpoint import_all (T : table) (ext : string -> bool) (fuel : nat) (l : list string) (s : istate) : oc :=
  match l with
  | [] => Done s
  | m :: l' => match imp T ext is_import_error fuel m s with Fail e s1 => Fail e s1 | Done s1 => import_all T ext fuel l' s1 end
  end.
(** the same, catching every exception *)
Fixpoint try_all (T : table) (ext : string -> bool) (fuel : nat) (l : list string) (s : istate) : istate :=
  match l with
  | [] => s
  | m :: l' => match imp T ext is_import_error fuel m s with Fail _ s1 => try_all T ext fuel l' s1 | Done s1 => try_all T ext fuel l' s1 end
  end.
