(** Shared vocabulary of the model: results with Python exceptions, comparisons and
    min/max on exact rationals, sums of lists.  Nothing here models a particular file
    of /repo; every [M_*] file builds on it.

    Python [float] is modelled by [Q] (exact rationals): no rounding, no NaN, no infinity. *)
From Coq Require Export String List Arith ZArith QArith Qminmax Qabs Qround Lia Lqa Bool Field.
Export ListNotations.

(** ** Exceptions as values *)

(** The Python exception classes that the modelled code can raise. *)
Inductive exn : Type :=
  | ValueError | ZeroDivisionError | KeyError | IndexError | TypeError | AttributeError
  | RuntimeError | NotImplementedError | OutOfFuel.

(** Outcome of a Python call: a value or a raised exception. *)
Inductive res (A : Type) : Type := Ok (a : A) | Err (e : exn).
Arguments Ok {A} a.
Arguments Err {A} e.

Definition bind {A B} (x : res A) (f : A -> res B) : res B :=
  match x with Ok a => f a | Err e => Err e end.

Declare Scope res_scope.
Notation "'do' x <- e1 ; e2" := (bind e1 (fun x => e2))
  (at level 200, x binder, e1 at level 100, e2 at level 200) : res_scope.
Open Scope res_scope.

Definition is_ok {A} (x : res A) : bool := match x with Ok _ => true | Err _ => false end.

(** ** Comparisons and min/max on rationals *)

Open Scope Q_scope.

(** Python [a < b] on numbers. *)
Definition qltb (a b : Q) : bool := negb (Qle_bool b a).
(** Python [max(a, b)] and [min(a, b)] (two arguments) on numbers. *)
Definition qmax (a b : Q) : Q := if Qle_bool a b then b else a.
Definition qmin (a b : Q) : Q := if Qle_bool a b then a else b.

(** Checked division: Python raises ZeroDivisionError on a zero divisor. *)
Definition qdiv (a b : Q) : res Q :=
  if Qeq_bool b 0 then Err ZeroDivisionError else Ok (a / b).

(** Sum of a list of numbers (Python [sum], [np.sum]). *)
Fixpoint qsum (l : list Q) : Q := match l with [] => 0 | x :: r => x + qsum r end.

(** Maximum and minimum of a non-empty list (Python [max(list)], [np.max]); the first
    element is passed separately so that emptiness is handled by the caller. *)
Definition qmaxl (x : Q) (l : list Q) : Q := fold_left qmax l x.
Definition qminl (x : Q) (l : list Q) : Q := fold_left qmin l x.

(** Python list indexing [l[i]]: a negative index counts from the end; IndexError outside. *)
Definition py_nth {A} (l : list A) (i : Z) : res A :=
  let n := Z.of_nat (length l) in
  let j := (if i <? 0 then i + n else i)%Z in
  if ((j <? 0) || (n <=? j))%Z then Err IndexError
  else match nth_error l (Z.to_nat j) with Some x => Ok x | None => Err IndexError end.

(** Python [d.get(k)] on a dict with string keys. *)
Fixpoint dict_get {A} (d : list (string * A)) (k : string) : option A :=
  match d with
  | [] => None
  | (k', v) :: r => if String.eqb k k' then Some v else dict_get r k
  end.
(** Python [k in d]. *)
Definition dict_has {A} (d : list (string * A)) (k : string) : bool :=
  match dict_get d k with Some _ => true | None => false end.

(** An integer as a number. *)
Definition qz (z : Z) : Q := inject_Z z.

(** ** Facts *)

Lemma qltb_true a b : qltb a b = true <-> a < b.
Proof.
  unfold qltb. rewrite negb_true_iff.
  split; intro H.
  - apply Qnot_le_lt. intro C. apply Qle_bool_iff in C. congruence.
  - destruct (Qle_bool b a) eqn:E; [|reflexivity].
    apply Qle_bool_iff in E. exfalso. lra.
Qed.

Lemma qltb_false a b : qltb a b = false <-> b <= a.
Proof.
  unfold qltb. rewrite negb_false_iff. apply Qle_bool_iff.
Qed.

Lemma qleb_true a b : Qle_bool a b = true <-> a <= b.
Proof. apply Qle_bool_iff. Qed.

Lemma qleb_false a b : Qle_bool a b = false <-> b < a.
Proof.
  split; intro H.
  - apply Qnot_le_lt. intro C. apply Qle_bool_iff in C. congruence.
  - destruct (Qle_bool a b) eqn:E; [|reflexivity].
    apply Qle_bool_iff in E. exfalso. lra.
Qed.

Lemma qeqb_true a b : Qeq_bool a b = true <-> a == b.
Proof. apply Qeq_bool_iff. Qed.

Lemma qeqb_false a b : Qeq_bool a b = false <-> ~ a == b.
Proof.
  split; intro H.
  - intro C. apply Qeq_bool_iff in C. congruence.
  - destruct (Qeq_bool a b) eqn:E; [|reflexivity].
    apply Qeq_bool_iff in E. tauto.
Qed.

(** Turn every boolean comparison in the context into an inequality. *)
Ltac qbool :=
  repeat match goal with
  | H : qltb _ _ = true |- _ => apply qltb_true in H
  | H : qltb _ _ = false |- _ => apply qltb_false in H
  | H : Qle_bool _ _ = true |- _ => apply qleb_true in H
  | H : Qle_bool _ _ = false |- _ => apply qleb_false in H
  | H : Qeq_bool _ _ = true |- _ => apply qeqb_true in H
  | H : Qeq_bool _ _ = false |- _ => apply qeqb_false in H
  | H : (_ || _)%bool = true |- _ => apply orb_true_iff in H
  | H : (_ || _)%bool = false |- _ => apply orb_false_iff in H; destruct H
  | H : (_ && _)%bool = true |- _ => apply andb_true_iff in H; destruct H
  | H : (_ && _)%bool = false |- _ => apply andb_false_iff in H
  | H : negb _ = true |- _ => apply negb_true_iff in H
  | H : negb _ = false |- _ => apply negb_false_iff in H
  end.

Lemma qmax_spec a b : (a <= b /\ qmax a b = b) \/ (b < a /\ qmax a b = a).
Proof.
  unfold qmax. destruct (Qle_bool a b) eqn:E; qbool; [left|right]; split; auto.
Qed.

Lemma qmin_spec a b : (a <= b /\ qmin a b = a) \/ (b < a /\ qmin a b = b).
Proof.
  unfold qmin. destruct (Qle_bool a b) eqn:E; qbool; [left|right]; split; auto.
Qed.

Lemma qmax_l a b : a <= qmax a b.
Proof. destruct (qmax_spec a b) as [[H E]|[H E]]; rewrite E; lra. Qed.
Lemma qmax_r a b : b <= qmax a b.
Proof. destruct (qmax_spec a b) as [[H E]|[H E]]; rewrite E; lra. Qed.
Lemma qmax_lub a b c : a <= c -> b <= c -> qmax a b <= c.
Proof. destruct (qmax_spec a b) as [[H E]|[H E]]; rewrite E; lra. Qed.
Lemma qmin_l a b : qmin a b <= a.
Proof. destruct (qmin_spec a b) as [[H E]|[H E]]; rewrite E; lra. Qed.
Lemma qmin_r a b : qmin a b <= b.
Proof. destruct (qmin_spec a b) as [[H E]|[H E]]; rewrite E; lra. Qed.
Lemma qmin_glb a b c : c <= a -> c <= b -> c <= qmin a b.
Proof. destruct (qmin_spec a b) as [[H E]|[H E]]; rewrite E; lra. Qed.

(** Case split on one innermost min/max (arguments free of min/max), keeping the order fact. *)
Ltac qmm1 :=
  match goal with
  | |- context [qmax ?a ?b] =>
      lazymatch a with context [qmax _ _] => fail | context [qmin _ _] => fail | _ => idtac end;
      lazymatch b with context [qmax _ _] => fail | context [qmin _ _] => fail | _ => idtac end;
      let H := fresh "Hm" in let E := fresh "Em" in
      destruct (qmax_spec a b) as [[H E]|[H E]]; rewrite ?E in *; clear E
  | |- context [qmin ?a ?b] =>
      lazymatch a with context [qmax _ _] => fail | context [qmin _ _] => fail | _ => idtac end;
      lazymatch b with context [qmax _ _] => fail | context [qmin _ _] => fail | _ => idtac end;
      let H := fresh "Hm" in let E := fresh "Em" in
      destruct (qmin_spec a b) as [[H E]|[H E]]; rewrite ?E in *; clear E
  | _ : context [qmax ?a ?b] |- _ =>
      lazymatch a with context [qmax _ _] => fail | context [qmin _ _] => fail | _ => idtac end;
      lazymatch b with context [qmax _ _] => fail | context [qmin _ _] => fail | _ => idtac end;
      let H := fresh "Hm" in let E := fresh "Em" in
      destruct (qmax_spec a b) as [[H E]|[H E]]; rewrite ?E in *; clear E
  | _ : context [qmin ?a ?b] |- _ =>
      lazymatch a with context [qmax _ _] => fail | context [qmin _ _] => fail | _ => idtac end;
      lazymatch b with context [qmax _ _] => fail | context [qmin _ _] => fail | _ => idtac end;
      let H := fresh "Hm" in let E := fresh "Em" in
      destruct (qmin_spec a b) as [[H E]|[H E]]; rewrite ?E in *; clear E
  end.
Ltac qmm := repeat (qmm1; try (exfalso; lra)).

Global Instance qmax_compat : Proper (Qeq ==> Qeq ==> Qeq) qmax.
Proof. intros a a' Ha b b' Hb. qmm; lra. Qed.
Global Instance qmin_compat : Proper (Qeq ==> Qeq ==> Qeq) qmin.
Proof. intros a a' Ha b b' Hb. qmm; lra. Qed.
Global Instance qltb_compat : Proper (Qeq ==> Qeq ==> eq) qltb.
Proof.
  intros a a' Ha b b' Hb.
  destruct (qltb a b) eqn:E1, (qltb a' b') eqn:E2; auto; qbool; exfalso; lra.
Qed.

Lemma qdiv_ok a b : ~ b == 0 -> qdiv a b = Ok (a / b).
Proof. intro H. unfold qdiv. destruct (Qeq_bool b 0) eqn:E; qbool; tauto. Qed.

Lemma qdiv_inv a b q : qdiv a b = Ok q -> ~ b == 0 /\ q = a / b.
Proof.
  unfold qdiv. destruct (Qeq_bool b 0) eqn:E; [discriminate|].
  qbool. intro H; inversion H; auto.
Qed.

Lemma bind_ok {A B} (x : res A) (f : A -> res B) b :
  bind x f = Ok b -> exists a, x = Ok a /\ f a = Ok b.
Proof. destruct x as [a|e]; simpl; [eauto|discriminate]. Qed.

(** Division facts in multiplicative form, for [lra]/[nra]. *)
Lemma qdiv_mul a b : ~ b == 0 -> (a / b) * b == a.
Proof. intro. field. assumption. Qed.
Lemma qinv_pos a : 0 < a -> 0 < / a.
Proof. apply Qinv_lt_0_compat. Qed.
Lemma qdiv_le_iff a b c : 0 < b -> (a / b <= c <-> a <= c * b).
Proof.
  intro Hb. assert (E : (a / b) * b == a) by (field; lra).
  split; intro H.
  - assert (a / b * b <= c * b) by (apply Qmult_le_compat_r; lra). lra.
  - destruct (Qlt_le_dec c (a / b)) as [L|L]; [|exact L].
    assert (c * b < a / b * b) by (apply Qmult_lt_compat_r; lra). lra.
Qed.
Lemma qle_div_iff a b c : 0 < b -> (c <= a / b <-> c * b <= a).
Proof.
  intro Hb. assert (E : (a / b) * b == a) by (field; lra).
  split; intro H.
  - assert (c * b <= a / b * b) by (apply Qmult_le_compat_r; lra). lra.
  - destruct (Qlt_le_dec (a / b) c) as [L|L]; [|exact L].
    assert (a / b * b < c * b) by (apply Qmult_lt_compat_r; lra). lra.
Qed.
Lemma qdiv_lt_iff a b c : 0 < b -> (a / b < c <-> a < c * b).
Proof.
  intro Hb. pose proof (qle_div_iff a b c Hb) as H.
  split; intro K; apply Qnot_le_lt; intro L; apply H in L; lra.
Qed.
Lemma qlt_div_iff a b c : 0 < b -> (c < a / b <-> c * b < a).
Proof.
  intro Hb. pose proof (qdiv_le_iff a b c Hb) as H.
  split; intro K; apply Qnot_le_lt; intro L; apply H in L; lra.
Qed.
Lemma qdiv_nonneg a b : 0 <= a -> 0 < b -> 0 <= a / b.
Proof. intros. apply qle_div_iff; lra. Qed.
Lemma qdiv_pos a b : 0 < a -> 0 < b -> 0 < a / b.
Proof. intros. apply qlt_div_iff; lra. Qed.
Lemma qmul_nonneg a b : 0 <= a -> 0 <= b -> 0 <= a * b.
Proof. intros. nra. Qed.
Lemma qmul_pos a b : 0 < a -> 0 < b -> 0 < a * b.
Proof. intros. nra. Qed.

Lemma qsum_app l1 l2 : qsum (l1 ++ l2) == qsum l1 + qsum l2.
Proof. induction l1 as [|x l IH]; simpl; [lra|]. rewrite IH. lra. Qed.

Lemma qsum_scale c l : qsum (map (fun x => c * x) l) == c * qsum l.
Proof. induction l as [|x l IH]; simpl; [lra|]. rewrite IH. lra. Qed.

Lemma qsum_map_ext {A} (f g : A -> Q) l :
  (forall x, In x l -> f x == g x) -> qsum (map f l) == qsum (map g l).
Proof.
  induction l as [|x l IH]; simpl; intros H; [lra|].
  rewrite (H x) by auto. rewrite IH by auto. lra.
Qed.

Lemma qsum_map_add {A} (f g : A -> Q) l :
  qsum (map (fun x => f x + g x) l) == qsum (map f l) + qsum (map g l).
Proof. induction l as [|x l IH]; simpl; [lra|]. rewrite IH. lra. Qed.

Lemma qsum_map_scale {A} c (f : A -> Q) l :
  qsum (map (fun x => c * f x) l) == c * qsum (map f l).
Proof. induction l as [|x l IH]; simpl; [lra|]. rewrite IH. lra. Qed.

Lemma qsum_map_le {A} (f g : A -> Q) l :
  (forall x, In x l -> f x <= g x) -> qsum (map f l) <= qsum (map g l).
Proof.
  induction l as [|x l IH]; simpl; intros H; [lra|].
  pose proof (H x (or_introl eq_refl)). assert (qsum (map f l) <= qsum (map g l)) by auto. lra.
Qed.

Lemma qsum_nonneg l : (forall x, In x l -> 0 <= x) -> 0 <= qsum l.
Proof.
  induction l as [|x l IH]; simpl; intros H; [lra|].
  pose proof (H x (or_introl eq_refl)). assert (0 <= qsum l) by auto. lra.
Qed.

Lemma qsum_repeat x n : qsum (repeat x n) == qz (Z.of_nat n) * x.
Proof.
  induction n as [|n IH]; [change (0 == 0 * x); lra|].
  cbn [repeat qsum]. rewrite IH. rewrite Nat2Z.inj_succ. unfold qz.
  unfold Z.succ. rewrite inject_Z_plus. change (inject_Z 1) with 1. lra.
Qed.

Lemma qmaxl_ge x l : x <= qmaxl x l /\ (forall y, In y l -> y <= qmaxl x l).
Proof.
  unfold qmaxl. revert x. induction l as [|z l IH]; intro x; simpl.
  - split; [lra|tauto].
  - destruct (IH (qmax x z)) as [H1 H2]. pose proof (qmax_l x z). pose proof (qmax_r x z).
    split; [lra|]. intros y [->|Hy]; [lra|auto].
Qed.

Lemma qmaxl_in x l : qmaxl x l = x \/ In (qmaxl x l) l.
Proof.
  unfold qmaxl. revert x. induction l as [|z l IH]; intro x; simpl; [auto|].
  destruct (IH (qmax x z)) as [H|H]; [|auto].
  rewrite H. destruct (qmax_spec x z) as [[_ E]|[_ E]]; rewrite E; auto.
Qed.

Lemma qminl_le x l : qminl x l <= x /\ (forall y, In y l -> qminl x l <= y).
Proof.
  unfold qminl. revert x. induction l as [|z l IH]; intro x; simpl.
  - split; [lra|tauto].
  - destruct (IH (qmin x z)) as [H1 H2]. pose proof (qmin_l x z). pose proof (qmin_r x z).
    split; [lra|]. intros y [->|Hy]; [lra|auto].
Qed.

Lemma qminl_in x l : qminl x l = x \/ In (qminl x l) l.
Proof.
  unfold qminl. revert x. induction l as [|z l IH]; intro x; simpl; [auto|].
  destruct (IH (qmin x z)) as [H|H]; [|auto].
  rewrite H. destruct (qmin_spec x z) as [[_ E]|[_ E]]; rewrite E; auto.
Qed.
