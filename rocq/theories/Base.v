(** Common vocabulary of the model: results, monadic notation, list update. *)
From Coq Require Export List Arith NArith ZArith Lia Bool.
From Coq Require Export ZifyBool ZifyNat ZifyN.
Export ListNotations.
Ltac Zify.zify_post_hook ::= Z.div_mod_to_equations.



(** Errors returned as [Result::Err] / [Option::None] by the code.
    Models crates/tetra-core/src/pdu_parse_error.rs:1-12 ([PduParseErr]);
    simplification: the payloads (field names, found values) are dropped;
    [NoneErr] stands for a plain [Option::None]. *)
Inductive err : Type :=
| EInvalidPduType
| EBufferEnded
| EInvalidTrailingMbitValue
| EInvalidElemId
| EFieldNotPresent
| EInvalidValue
| EInconsistentLength
| EInconsistency
| ENotImplemented
| ENone.

(** Outcome of running a function of the code: a value, a returned error, or a
    panic (failed assert/unwrap, [panic!], [unimplemented!], index out of
    bounds, debug-build arithmetic overflow). *)
Inductive res (A : Type) : Type :=
| Ok (a : A)
| Err (e : err)
| Panic.
Arguments Ok {A} a.
Arguments Err {A} e.
Arguments Panic {A}.

Definition bind {A B : Type} (x : res A) (f : A -> res B) : res B :=
  match x with
  | Ok a => f a
  | Err e => Err e
  | Panic => Panic
  end.

Declare Scope res_scope.
Delimit Scope res_scope with res.
Notation "x <- e ;; f" := (bind e (fun x => f))
  (at level 61, e at next level, right associativity) : res_scope.
Notation "' p <- e ;; f" := (bind e (fun p => f))
  (at level 61, p pattern, e at next level, right associativity) : res_scope.
Notation "e ;;; f" := (bind e (fun _ => f))
  (at level 61, right associativity) : res_scope.
Open Scope res_scope.

(** [assert!(c)]: continue or panic. *)
Definition assert (c : bool) : res unit := if c then Ok tt else Panic.
(** [Result::Err(e)] unless [c] holds. *)
Definition guard (c : bool) (e : err) : res unit := if c then Ok tt else Err e.

(** [option.unwrap()] *)
Definition unwrap {A} (x : option A) : res A :=
  match x with Some a => Ok a | None => Panic end.
(** [option.ok_or(e)?] *)
Definition ok_or {A} (x : option A) (e : err) : res A :=
  match x with Some a => Ok a | None => Err e end.

(** [v[i] = x] on a vector, no effect when out of range (callers check). *)
Fixpoint upd {A} (l : list A) (i : nat) (x : A) : list A :=
  match l, i with
  | [], _ => []
  | _ :: t, O => x :: t
  | h :: t, S i' => h :: upd t i' x
  end.

Lemma upd_length {A} (l : list A) i x : length (upd l i x) = length l.
Proof. revert i; induction l as [|h t IH]; intros [|i]; cbn; congruence. Qed.

Lemma nth_upd {A} (l : list A) i j x d :
  nth j (upd l i x) d = if (Nat.eqb j i && Nat.ltb i (length l))%bool then x else nth j l d.
Proof.
  revert i j; induction l as [|h t IH]; intros i j; cbn [upd length].
  - destruct i; cbn; now rewrite Bool.andb_false_r.
  - destruct i as [|i], j as [|j]; cbn [nth]; try reflexivity.
    rewrite IH. reflexivity.
Qed.

Lemma nth_error_upd {A} (l : list A) i j x :
  nth_error (upd l i x) j = if (Nat.eqb j i && Nat.ltb i (length l))%bool then Some x else nth_error l j.
Proof.
  revert i j; induction l as [|h t IH]; intros i j; cbn [upd length].
  - destruct i; cbn; now rewrite Bool.andb_false_r.
  - destruct i as [|i], j as [|j]; cbn [nth_error]; try reflexivity.
    rewrite IH. reflexivity.
Qed.

Lemma bind_ok {A B} (x : res A) (f : A -> res B) y :
  bind x f = Ok y -> exists a, x = Ok a /\ f a = Ok y.
Proof. destruct x; cbn; intros H; try discriminate. eauto. Qed.

(** [Some]/[None] shapes of [Ok] used in totality statements. *)
Definition no_panic {A} (x : res A) : Prop := x <> Panic.

Lemma no_panic_bind {A B} (x : res A) (f : A -> res B) :
  no_panic x -> (forall a, x = Ok a -> no_panic (f a)) -> no_panic (bind x f).
Proof. unfold no_panic; destruct x; cbn; intros H1 H2; auto; discriminate. Qed.

Global Arguments Nat.div : simpl never.
Global Arguments Nat.modulo : simpl never.
Global Arguments N.mul : simpl never.
Global Arguments N.add : simpl never.
Global Arguments N.sub : simpl never.
Global Arguments N.pow : simpl never.
Global Arguments N.div : simpl never.
Global Arguments N.modulo : simpl never.
Global Arguments Z.mul : simpl never.
Global Arguments Z.add : simpl never.
Global Arguments Z.sub : simpl never.
Global Arguments Z.pow : simpl never.
Global Arguments Z.div : simpl never.
Global Arguments Z.modulo : simpl never.

(** Case split on the condition of an [if] at the head of a hypothesis' left-hand side. *)
Ltac case_if_in H := match type of H with (if ?c then _ else _) = _ => destruct c eqn:? end.
