(** * Client programs of BigNumber (pythoncardx/framework/math.py): a history of calls in
      which the caller catches every exception, and a conversion between the formats *)
From Verif Require Import Py M_utils M_util M_bignumber.

(** what each call returned or raised, and the number after the last *)
Fixpoint big_run (ops : list big_op) (s : bignum) : list (res unit) * bignum :=
  match ops with
  | [] => ([], s)
  | o :: ops' =>
      let '(r, s1) := big_step o s in
      let '(rs, s2) := big_run ops' s1 in
      (r :: rs, s2)
  end.

(** [n = BigNumber(); n.init(a, off, len, f1); n.toBytes(out, 0, nb, f2)] into a new array
    of nb cells *)
Definition convert (a : list Z) (off len f1 nb f2 : Z) : res (list Z) :=
  match init (Some a) off len f1 (mkBig None None) with
  | (Ok _, s) =>
      match toBytes s 0 nb f2 (py_repeat 0 nb) with
      | (Ok _, out) => Ok out
      | (Err e, _) => Err e
      end
  | (Err e, _) => Err e
  end.
