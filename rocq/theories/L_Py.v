(** * Lemmas about the Python semantics of Py.v *)
From Verif Require Import Py S_Base.
From Coq Require Import ZifyBool ZifyNat.
Ltac Zify.zify_post_hook ::= Z.div_mod_to_equations.

Lemma zlen_nonneg {A} (l : list A) : 0 <= zlen l.
Proof. unfold zlen; lia. Qed.

Lemma zlen_app {A} (l l' : list A) : zlen (l ++ l') = zlen l + zlen l'.
Proof. unfold zlen; rewrite app_length; lia. Qed.

Lemma zlen_cons {A} (x : A) l : zlen (x :: l) = zlen l + 1.
Proof. unfold zlen; simpl length; lia. Qed.

Lemma zlen_nil {A} : zlen (@nil A) = 0.
Proof. reflexivity. Qed.

Lemma to_nat_zlen {A} (l : list A) : Z.to_nat (zlen l) = length l.
Proof. unfold zlen; lia. Qed.

Lemma zlen_repeat {A} (v : A) n : zlen (repeat v n) = Z.of_nat n.
Proof. unfold zlen; now rewrite repeat_length. Qed.

(** ** list_upd *)
Lemma list_upd_length {A} (l : list A) k v : length (list_upd l k v) = length l.
Proof. revert k; induction l as [|x l IH]; intros [|k]; simpl; auto. Qed.

Lemma zlen_list_upd {A} (l : list A) k v : zlen (list_upd l k v) = zlen l.
Proof. unfold zlen; now rewrite list_upd_length. Qed.

Lemma list_upd_split {A} (l : list A) k v : (k < length l)%nat ->
  list_upd l k v = firstn k l ++ v :: skipn (S k) l.
Proof.
  revert k; induction l as [|x l IH]; intros [|k] H; simpl in *; try lia; auto.
  f_equal. rewrite IH by lia. reflexivity.
Qed.

Lemma nth_error_list_upd {A} (l : list A) k v j :
  nth_error (list_upd l k v) j =
  if Nat.eqb j k then (if Nat.ltb k (length l) then Some v else None)
  else nth_error l j.
Proof.
  revert k j; induction l as [|x l IH]; intros k j; simpl.
  - destruct (Nat.eqb_spec j k); destruct j; reflexivity.
  - destruct k as [|k]; destruct j as [|j]; simpl; auto.
    rewrite IH. destruct (Nat.eqb j k); auto.
Qed.

Lemma nth_list_upd {A} (l : list A) k v j d :
  nth j (list_upd l k v) d =
  if Nat.eqb j k && Nat.ltb k (length l) then v else nth j l d.
Proof.
  revert k j; induction l as [|x l IH]; intros k j; simpl.
  - rewrite andb_false_r. destruct k; reflexivity.
  - destruct k as [|k]; destruct j as [|j]; simpl; auto.
    rewrite IH. reflexivity.
Qed.

Lemma firstn_list_upd_ge {A} (l : list A) k v n : (n <= k)%nat ->
  firstn n (list_upd l k v) = firstn n l.
Proof.
  revert k n; induction l as [|x l IH]; intros [|k] [|n] H; simpl; auto; try lia.
  f_equal; apply IH; lia.
Qed.

Lemma skipn_list_upd_lt {A} (l : list A) k v n : (k < n)%nat ->
  skipn n (list_upd l k v) = skipn n l.
Proof.
  revert k n; induction l as [|x l IH]; intros [|k] [|n] H; simpl; auto; try lia.
  apply IH; lia.
Qed.

(** ** indexing *)
Lemma py_index_pos n i : 0 <= i < n -> py_index n i = Some (Z.to_nat i).
Proof. intros H; unfold py_index. replace ((0 <=? i) && (i <? n)) with true by lia. reflexivity. Qed.

Lemma py_index_neg n i : - n <= i < 0 -> py_index n i = Some (Z.to_nat (i + n)).
Proof.
  intros H; unfold py_index.
  replace ((0 <=? i) && (i <? n)) with false by lia.
  replace ((- n <=? i) && (i <? 0)) with true by lia. reflexivity.
Qed.

Lemma py_index_none n i : (i < - n \/ n <= i) -> 0 <= n -> py_index n i = None.
Proof.
  intros H Hn; unfold py_index.
  replace ((0 <=? i) && (i <? n)) with false by lia.
  replace ((- n <=? i) && (i <? 0)) with false by lia. reflexivity.
Qed.

Lemma py_index_lt n i k : py_index n i = Some k -> Z.of_nat k < n.
Proof.
  unfold py_index. destruct ((0 <=? i) && (i <? n)) eqn:E1.
  - intros [= <-]; lia.
  - destruct ((- n <=? i) && (i <? 0)) eqn:E2; intros [= <-]; lia.
Qed.

Lemma py_get_in {A} (l : list A) i d : 0 <= i < zlen l ->
  py_get l i = Ok (nth (Z.to_nat i) l d).
Proof.
  intros H; unfold py_get. rewrite py_index_pos by assumption.
  rewrite (nth_error_nth' l d); [reflexivity|]. unfold zlen in H; lia.
Qed.

Lemma py_get_neg {A} (l : list A) i d : - zlen l <= i < 0 ->
  py_get l i = Ok (nth (Z.to_nat (i + zlen l)) l d).
Proof.
  intros H; unfold py_get. rewrite py_index_neg by assumption.
  rewrite (nth_error_nth' l d); [reflexivity|]. unfold zlen in *; lia.
Qed.

Lemma py_get_out {A} (l : list A) i : (i < - zlen l \/ zlen l <= i) ->
  py_get l i = Err IndexError.
Proof.
  intros H; unfold py_get. rewrite py_index_none; auto using zlen_nonneg.
Qed.

Lemma py_get_cases {A} (l : list A) i :
  (exists v, py_get l i = Ok v) \/ py_get l i = Err IndexError.
Proof.
  unfold py_get. destruct (py_index _ _); auto. destruct (nth_error _ _); eauto.
Qed.

Lemma py_get_ok_inv {A} (l : list A) i v : py_get l i = Ok v ->
  - zlen l <= i < zlen l.
Proof.
  unfold py_get, py_index.
  destruct ((0 <=? i) && (i <? zlen l)) eqn:E1; [intros _; lia|].
  destruct ((- zlen l <=? i) && (i <? 0)) eqn:E2; [intros _; lia|discriminate].
Qed.

Lemma py_get_In {A} (l : list A) i v : py_get l i = Ok v -> In v l.
Proof.
  unfold py_get. destruct (py_index _ _) as [k|]; [|discriminate].
  destruct (nth_error l k) eqn:E; [|discriminate].
  intros [= <-]. eapply nth_error_In; eauto.
Qed.

Lemma py_get_nth_error {A} (l : list A) (k : nat) v :
  nth_error l k = Some v -> py_get l (Z.of_nat k) = Ok v.
Proof.
  intros H. assert (Hk : (k < length l)%nat) by (apply nth_error_Some; congruence).
  unfold py_get. rewrite py_index_pos by (unfold zlen; lia).
  rewrite Nat2Z.id, H. reflexivity.
Qed.

Lemma py_set_in {A} (l : list A) i v : 0 <= i < zlen l ->
  py_set l i v = Ok (list_upd l (Z.to_nat i) v).
Proof. intros H; unfold py_set; now rewrite py_index_pos. Qed.

Lemma py_set_neg {A} (l : list A) i v : - zlen l <= i < 0 ->
  py_set l i v = Ok (list_upd l (Z.to_nat (i + zlen l)) v).
Proof. intros H; unfold py_set; now rewrite py_index_neg. Qed.

Lemma py_set_out {A} (l : list A) i v : (i < - zlen l \/ zlen l <= i) ->
  py_set l i v = Err IndexError.
Proof. intros H; unfold py_set; rewrite py_index_none; auto using zlen_nonneg. Qed.

Lemma py_set_cases {A} (l : list A) i v :
  (exists l', py_set l i v = Ok l' /\ length l' = length l)
  \/ py_set l i v = Err IndexError.
Proof.
  unfold py_set. destruct (py_index _ _); eauto using list_upd_length.
Qed.

(** ** slices *)
Lemma skipn_skipn {A} (n m : nat) (l : list A) : skipn n (skipn m l) = skipn (n + m) l.
Proof.
  revert l; induction m as [|m IH]; intros l; [now rewrite Nat.add_0_r|].
  rewrite Nat.add_succ_r. destruct l as [|x l]; [now rewrite !skipn_nil|].
  exact (IH l).
Qed.

Lemma py_slice_in {A} (l : list A) a b : 0 <= a <= b -> b <= zlen l ->
  py_slice l a b = sub l (Z.to_nat a) (Z.to_nat (b - a)).
Proof.
  intros H Hb; unfold py_slice, py_clamp, sub.
  replace (a <? 0) with false by lia. replace (b <? 0) with false by lia.
  rewrite !Z.min_l by lia. reflexivity.
Qed.

Lemma sub_length {A} (l : list A) off n : (off + n <= length l)%nat ->
  length (sub l off n) = n.
Proof. intros H; unfold sub. rewrite firstn_length, skipn_length. lia. Qed.

Lemma sub_length_gen {A} (l : list A) off n :
  length (sub l off n) = Nat.min n (length l - off).
Proof. unfold sub. rewrite firstn_length, skipn_length. lia. Qed.

Lemma sub_full {A} (l : list A) n : (length l <= n)%nat -> sub l 0 n = l.
Proof. intros H; unfold sub; simpl. now apply firstn_all2. Qed.

Lemma sub_S {A} (l : list A) off n d : (off < length l)%nat ->
  sub l off (S n) = nth off l d :: sub l (S off) n.
Proof.
  intros H; unfold sub. revert off H; induction l as [|x l IH]; intros off H; simpl in H; [lia|].
  destruct off as [|off]; simpl; [reflexivity|]. apply IH; lia.
Qed.

Lemma skipn_nth {A} (l : list A) off d : (off < length l)%nat ->
  skipn off l = nth off l d :: skipn (S off) l.
Proof.
  revert off; induction l as [|x l IH]; intros [|off] H; simpl in *; try lia; auto.
  apply IH; lia.
Qed.

Lemma nth_sub {A} (l : list A) off n j d : (j < n)%nat ->
  nth j (sub l off n) d = nth (off + j) l d.
Proof.
  intros H; unfold sub. rewrite <- (firstn_skipn off l) at 2.
  destruct (Nat.le_gt_cases off (length l)) as [Ho|Ho].
  - rewrite app_nth2; rewrite firstn_length; [|lia].
    replace (off + j - Nat.min off (length l))%nat with j by lia.
    revert j H; generalize (skipn off l) as m; induction n as [|n IH]; intros m j H; [lia|].
    destruct m as [|x m]; simpl; [destruct j; reflexivity|].
    destruct j; simpl; auto. apply IH; lia.
  - rewrite skipn_all2 by lia. rewrite firstn_nil, app_nil_r.
    rewrite firstn_all2 by lia. rewrite (nth_overflow l) by lia.
    destruct j; reflexivity.
Qed.

Lemma sub_app_l {A} (l l' : list A) off n : (off + n <= length l)%nat ->
  sub (l ++ l') off n = sub l off n.
Proof.
  intros H; unfold sub. rewrite skipn_app. rewrite firstn_app.
  rewrite skipn_length. replace (n - (length l - off))%nat with 0%nat by lia.
  simpl. now rewrite app_nil_r.
Qed.

Lemma sub_app_r {A} (l l' : list A) off n :
  sub (l ++ l') (length l + off) n = sub l' off n.
Proof.
  unfold sub. rewrite skipn_app. rewrite skipn_all2 by lia. simpl.
  f_equal. f_equal. lia.
Qed.

Lemma sub_sub {A} (l : list A) off n off' n' : (off' + n' <= n)%nat ->
  sub (sub l off n) off' n' = sub l (off + off') n'.
Proof.
  intros H; unfold sub. rewrite skipn_firstn_comm.
  rewrite firstn_firstn. rewrite skipn_skipn. rewrite (Nat.add_comm off off'). f_equal. lia.
Qed.

Lemma sub_plus {A} (l : list A) off n m :
  sub l off (n + m) = sub l off n ++ sub l (off + n) m.
Proof.
  unfold sub. rewrite (Nat.add_comm off n), <- skipn_skipn.
  generalize (skipn off l) as k; intros k. revert k.
  induction n as [|n IH]; intros k; simpl; auto.
  destruct k as [|x k]; simpl; [now rewrite firstn_nil|]. now rewrite IH.
Qed.

Lemma sub_0 {A} (l : list A) off : sub l off 0 = [].
Proof. reflexivity. Qed.

Lemma sub_all_app {A} (l l' : list A) n : n = length l -> sub (l ++ l') 0 n = l.
Proof.
  intros ->. unfold sub; simpl. rewrite firstn_app, Nat.sub_diag, firstn_all. simpl.
  apply app_nil_r.
Qed.

(** ** splice *)
Lemma splice_nil {A} (l : list A) off : splice l off [] = l.
Proof. unfold splice; simpl. rewrite Nat.add_0_r. apply firstn_skipn. Qed.

Lemma splice_length {A} (l : list A) off vs : (off + length vs <= length l)%nat ->
  length (splice l off vs) = length l.
Proof.
  intros H; unfold splice. rewrite !app_length, firstn_length, skipn_length. lia.
Qed.

Lemma list_upd_splice {A} (l : list A) k v : (k < length l)%nat ->
  list_upd l k v = splice l k [v].
Proof.
  intros H. rewrite list_upd_split by assumption. unfold splice; simpl.
  now rewrite Nat.add_1_r.
Qed.

Lemma splice_app {A} (l : list A) off vs ws : (off + length vs + length ws <= length l)%nat ->
  splice (splice l off vs) (off + length vs) ws = splice l off (vs ++ ws).
Proof.
  intros H; unfold splice.
  assert (Hf : length (firstn off l) = off) by (rewrite firstn_length; lia).
  rewrite firstn_app, firstn_firstn, Hf.
  replace (Nat.min (off + length vs) off) with off by lia.
  replace (off + length vs - off)%nat with (length vs) by lia.
  rewrite firstn_app, firstn_all, Nat.sub_diag. simpl. rewrite app_nil_r.
  rewrite <- app_assoc. f_equal. rewrite <- app_assoc. f_equal. f_equal.
  rewrite skipn_app, Hf. rewrite skipn_all2 by (rewrite Hf; lia). simpl.
  rewrite skipn_app. rewrite skipn_all2 by lia. simpl.
  rewrite skipn_skipn. rewrite app_length. f_equal. lia.
Qed.

Lemma splice_cons {A} (l : list A) k v vs : (k + S (length vs) <= length l)%nat ->
  splice (list_upd l k v) (S k) vs = splice l k (v :: vs).
Proof.
  intros H. rewrite list_upd_splice by lia.
  replace (S k) with (k + length [v])%nat by (simpl; lia).
  rewrite splice_app by (simpl; lia). reflexivity.
Qed.

Lemma nth_splice_in {A} (l : list A) off vs j d : (off <= length l)%nat ->
  (off <= j < off + length vs)%nat ->
  nth j (splice l off vs) d = nth (j - off) vs d.
Proof.
  intros Hl H; unfold splice.
  assert (Hf : length (firstn off l) = off) by (rewrite firstn_length; lia).
  rewrite app_nth2 by lia. rewrite Hf. rewrite app_nth1 by lia. reflexivity.
Qed.

Lemma nth_splice_out {A} (l : list A) off vs j d : (off + length vs <= length l)%nat ->
  (j < off \/ off + length vs <= j)%nat ->
  nth j (splice l off vs) d = nth j l d.
Proof.
  intros Hl H; unfold splice.
  assert (Hf : length (firstn off l) = off) by (rewrite firstn_length; lia).
  destruct H as [H|H].
  - rewrite app_nth1 by lia. rewrite <- (firstn_skipn off l) at 2.
    now rewrite app_nth1 by lia.
  - rewrite app_nth2 by lia. rewrite Hf. rewrite app_nth2 by lia.
    rewrite <- (firstn_skipn (off + length vs) l) at 2.
    rewrite app_nth2; rewrite firstn_length; [|lia]. f_equal. lia.
Qed.

Lemma sub_splice {A} (l : list A) off vs n : n = length vs -> (off + length vs <= length l)%nat ->
  sub (splice l off vs) off n = vs.
Proof.
  intros -> H; unfold sub, splice.
  assert (Hf : length (firstn off l) = off) by (rewrite firstn_length; lia).
  rewrite skipn_app, Hf, Nat.sub_diag. rewrite skipn_all2 by lia. simpl.
  rewrite firstn_app, firstn_all, Nat.sub_diag. simpl. apply app_nil_r.
Qed.

Lemma splice_all {A} (l vs : list A) : length vs = length l -> splice l 0 vs = vs.
Proof.
  intros H; unfold splice; simpl. rewrite skipn_all2 by lia. apply app_nil_r.
Qed.

Lemma py_slice_set_in {A} (l : list A) a b vs : 0 <= a <= b -> b <= zlen l ->
  zlen vs = b - a ->
  py_slice_set l a b vs = splice l (Z.to_nat a) vs.
Proof.
  intros H Hb Hv; unfold py_slice_set, py_clamp, splice.
  replace (a <? 0) with false by lia. replace (b <? 0) with false by lia.
  rewrite !Z.min_l by lia. rewrite Z.max_r by lia. do 3 f_equal. unfold zlen in Hv; lia.
Qed.

(** ** equality of lists *)
Lemma list_eqb_eq l l' : list_eqb l l' = true <-> l = l'.
Proof.
  revert l'; induction l as [|x l IH]; intros [|y l']; simpl; split; try congruence; auto.
  - rewrite andb_true_iff, Z.eqb_eq, IH. intros [-> ->]; reflexivity.
  - intros [= -> ->]. rewrite Z.eqb_refl. simpl. now apply IH.
Qed.

Lemma list_eqb_refl l : list_eqb l l = true.
Proof. now apply list_eqb_eq. Qed.

Lemma list_eqb_sym l l' : list_eqb l l' = list_eqb l' l.
Proof.
  revert l'; induction l as [|x l IH]; intros [|y l']; simpl; auto.
  now rewrite Z.eqb_sym, IH.
Qed.

Lemma list_eqb_neq l l' : list_eqb l l' = false <-> l <> l'.
Proof.
  split.
  - intros H E; apply list_eqb_eq in E; congruence.
  - intros H; destruct (list_eqb l l') eqn:E; auto. apply list_eqb_eq in E; contradiction.
Qed.

Lemma nth_ext_all {A} (l l' : list A) d : length l = length l' ->
  (forall j, (j < length l)%nat -> nth j l d = nth j l' d) -> l = l'.
Proof. intros; eapply nth_ext; eauto. Qed.

(** ** loops *)
Lemma for_loop_S {S} n i (body : Z -> M S unit) :
  for_loop (Datatypes.S n) i body = (body i ;;; for_loop n (i + 1) body).
Proof. reflexivity. Qed.

Lemma for_range_0 {S} n (body : Z -> M S unit) :
  for_range 0 n body = for_loop (Z.to_nat n) 0 body.
Proof. unfold for_range. now rewrite Z.sub_0_r. Qed.

(** A loop whose body preserves [P] (on both exits) preserves [P]. *)
Lemma for_loop_inv {S} (P : S -> Prop) (body : Z -> M S unit) :
  (forall i s, P s -> P (snd (body i s))) ->
  forall n i s, P s -> P (snd (for_loop n i body s)).
Proof.
  intros Hb n; induction n as [|n IH]; intros i s Hs; simpl; auto.
  unfold bind. specialize (Hb i s Hs). destruct (body i s) as [[u|e] s']; simpl in *; auto.
Qed.

Lemma for_loop_app {S} (body : Z -> M S unit) n m i s :
  for_loop (n + m) i body s =
  match for_loop n i body s with
  | (Ok _, s') => for_loop m (i + Z.of_nat n) body s'
  | (Err e, s') => (Err e, s')
  end.
Proof.
  revert i s; induction n as [|n IH]; intros i s.
  - simpl. now rewrite Z.add_0_r.
  - cbn [Nat.add for_loop]. unfold bind. destruct (body i s) as [[[]|e] s']; auto.
    rewrite IH. replace (i + Z.of_nat (Datatypes.S n)) with (i + 1 + Z.of_nat n) by lia. reflexivity.
Qed.

(** ** binds *)
Lemma bind_ok {S A B} (m : M S A) (f : A -> M S B) s a s' :
  m s = (Ok a, s') -> bind m f s = f a s'.
Proof. intros H; unfold bind; now rewrite H. Qed.

Lemma bind_err {S A B} (m : M S A) (f : A -> M S B) s e s' :
  m s = (Err e, s') -> bind m f s = (Err e, s').
Proof. intros H; unfold bind; now rewrite H. Qed.

Lemma bind_err_fst {S A B} (m : M S A) (f : A -> M S B) s e :
  fst (m s) = Err e -> fst (bind m f s) = Err e.
Proof. intros H; unfold bind. destruct (m s) as [r s']. cbn in H. now subst r. Qed.
