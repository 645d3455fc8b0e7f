(** Array access used by the lower-MAC model: bounds-checked element copies [dst[i] = src[j]]. *)
From Verif Require Import Base.

Section Arr.
  Context {A : Type}.
  (** [dst[i] = src[j]] *)
  Definition copy1 (src dst : list A) (i j : nat) : res (list A) :=
    x <- unwrap (nth_error src j) ;; assert (i <? length dst)%nat ;;; Ok (upd dst i x).
  (** a loop of such copies *)
  Fixpoint copy_idx (ps : list (nat * nat)) (src dst : list A) : res (list A) :=
    match ps with
    | [] => Ok dst
    | (i, j) :: ps => dst <- copy1 src dst i j ;; copy_idx ps src dst
    end.
  (** [&a[i..i+n]] *)
  Definition slice (a : list A) (i n : nat) : res (list A) :=
    assert (i + n <=? length a)%nat ;;; Ok (firstn n (skipn i a)).
  (** [a[i..i+n].copy_from_slice(s)] with [n = s.len()] *)
  Definition blit (a : list A) (i : nat) (s : list A) : res (list A) :=
    assert (i + length s <=? length a)%nat ;;; Ok (firstn i a ++ s ++ skipn (i + length s) a).
End Arr.
