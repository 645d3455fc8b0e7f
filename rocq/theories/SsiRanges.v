(** Model of crates/tetra-core/src/ranges.rs. *)
From Coq Require Import NArith.
From Verif Require Import Base.
Local Open Scope N_scope.

(** ranges.rs:2-7 [SsiRange] *)
Record ssi_range := mk_range { r_start : N; r_end : N }.

(** ranges.rs:18 [sort_by(|a, b| a.start.cmp(&b.start))]: [slice::sort_by] is a stable sort; modelled
    by stable insertion sort (all stable sorts give the same list). *)
Fixpoint range_insert (r : ssi_range) (l : list ssi_range) : list ssi_range :=
  match l with
  | [] => [r]
  | x :: t => if r_start r <=? r_start x then r :: x :: t else x :: range_insert r t
  end.
Fixpoint range_sort (l : list ssi_range) : list ssi_range :=
  match l with [] => [] | r :: t => range_insert r (range_sort t) end.

(** ranges.rs:21-26: the sanity loop *)
Fixpoint range_check (lower : N) (l : list ssi_range) : res unit :=
  match l with
  | [] => Ok tt
  | r :: t =>
      assert (r_start r <=? r_end r) ;;; assert (lower <=? r_start r) ;;; range_check (r_end r) t
  end.

(** ranges.rs:17-28 [from_vec_ssirange] *)
Definition ranges_from_vec (l : list ssi_range) : res (list ssi_range) :=
  let s := range_sort l in range_check 0 s ;;; Ok s.

(** ranges.rs:33-36 [from_vec_tuple] *)
Definition ranges_from_tuples (l : list (N * N)) : res (list ssi_range) :=
  ranges_from_vec (map (fun p => mk_range (fst p) (snd p)) l).

(** ranges.rs:44-57 [contains] *)
Fixpoint ranges_contains (l : list ssi_range) (addr : N) : bool :=
  match l with
  | [] => false
  | r :: t =>
      if (r_start r <=? addr) && (addr <? r_end r) then true
      else if addr <? r_end r then false
      else ranges_contains t addr
  end.
