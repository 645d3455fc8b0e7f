(** Model of crates/tetra-entities/src/umac/subcomp/circuit_mgr.rs [CircuitMgr].  [C] is the
    [Circuit] record without its timeslot; [B] is a block of voice data. *)
From Verif Require Import Base.
Open Scope nat_scope.

(** tetra-core [Direction] *)
Inductive direction := DirNone | DirDl | DirUl | DirBoth.

Section Circuits.
Context {C B : Type}.
(** circuit_mgr.rs:6-12: the arrays have four entries *)
Record ucm := mk_ucm { uc_dl : list (option C); uc_ul : list (option C); uc_tx : list (list B) }.
(** circuit_mgr.rs:15-21 [new] *)
Definition ucm_new : ucm := mk_ucm (repeat None 4) (repeat None 4) (repeat [] 4).
(** [self.x[ts as usize - 1]]: subtraction underflow or index out of range panics *)
Definition ts_get {A} (l : list A) (ts : nat) : res A :=
  match ts with O => Panic | S i => unwrap (nth_error l i) end.
Definition ts_set {A} (l : list A) (ts : nat) (x : A) : list A := upd l (ts - 1) x.

(** circuit_mgr.rs:23-29 [is_active] *)
Definition ucm_is_active (d : direction) (ts : nat) (m : ucm) : res bool :=
  match d with
  | DirDl => c <- ts_get (uc_dl m) ts ;; Ok (match c with Some _ => true | None => false end)
  | DirUl => c <- ts_get (uc_ul m) ts ;; Ok (match c with Some _ => true | None => false end)
  | _ => Panic
  end.
(** circuit_mgr.rs:31-49 [get_usage] *)
Definition ucm_get_usage (usage : C -> N) (d : direction) (ts : nat) (m : ucm) : res (option N) :=
  match d with
  | DirDl => c <- ts_get (uc_dl m) ts ;; Ok (option_map usage c)
  | DirUl => c <- ts_get (uc_ul m) ts ;; Ok (option_map usage c)
  | _ => Panic
  end.
(** circuit_mgr.rs:52-61 [close_circuit] *)
Definition ucm_close (d : direction) (ts : nat) (m : ucm) : res (option C * ucm) :=
  match d with
  | DirDl =>
      c <- ts_get (uc_dl m) ts ;;
      Ok (c, mk_ucm (ts_set (uc_dl m) ts None) (uc_ul m) (ts_set (uc_tx m) ts []))
  | DirUl => c <- ts_get (uc_ul m) ts ;; Ok (c, mk_ucm (uc_dl m) (ts_set (uc_ul m) ts None) (uc_tx m))
  | _ => Panic
  end.
(** circuit_mgr.rs:65-85 [create_circuit] *)
Definition ucm_create (d : direction) (ts : nat) (c : C) (m : ucm) : res ucm :=
  a <- ucm_is_active d ts m ;;
  m <- (if a then '(_, m) <- ucm_close d ts m ;; Ok m else Ok m) ;;
  match d with
  | DirDl =>
      q <- ts_get (uc_tx m) ts ;;
      let tx := match q with [] => uc_tx m | _ => ts_set (uc_tx m) ts [] end in
      Ok (mk_ucm (ts_set (uc_dl m) ts (Some c)) (uc_ul m) tx)
  | DirUl => Ok (mk_ucm (uc_dl m) (ts_set (uc_ul m) ts (Some c)) (uc_tx m))
  | _ => Panic
  end.
(** circuit_mgr.rs:88-94 [put_block] *)
Definition ucm_put (ts : nat) (b : B) (m : ucm) : res ucm :=
  a <- ucm_is_active DirDl ts m ;;
  if a then q <- ts_get (uc_tx m) ts ;; Ok (mk_ucm (uc_dl m) (uc_ul m) (ts_set (uc_tx m) ts (q ++ [b]))) else Ok m.
(** circuit_mgr.rs:97-103 [take_block] *)
Definition ucm_take (ts : nat) (m : ucm) : res (option B * ucm) :=
  a <- ucm_is_active DirDl ts m ;;
  if a then
    q <- ts_get (uc_tx m) ts ;;
    match q with
    | [] => Ok (None, m)
    | b :: t => Ok (Some b, mk_ucm (uc_dl m) (uc_ul m) (ts_set (uc_tx m) ts t))
    end
  else Ok (None, m).

(** Histories of calls and, for each, the block it returned if it was a take. *)
Inductive uc_op := UcCreate (d : direction) (ts : nat) (c : C) | UcClose (d : direction) (ts : nat) | UcPut (ts : nat) (b : B) | UcTake (ts : nat).
Definition uc_step (o : uc_op) (m : ucm) : res (option B * ucm) :=
  match o with
  | UcCreate d ts c => m <- ucm_create d ts c m ;; Ok (None, m)
  | UcClose d ts => '(_, m) <- ucm_close d ts m ;; Ok (None, m)
  | UcPut ts b => m <- ucm_put ts b m ;; Ok (None, m)
  | UcTake ts => ucm_take ts m
  end.
Fixpoint uc_run (l : list uc_op) (m : ucm) : res (list (uc_op * option B) * ucm) :=
  match l with
  | [] => Ok ([], m)
  | o :: t => '(x, m) <- uc_step o m ;; '(xs, m) <- uc_run t m ;; Ok ((o, x) :: xs, m)
  end.
End Circuits.
Arguments ucm C B : clear implicits.
Arguments uc_op C B : clear implicits.
