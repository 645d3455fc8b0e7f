(** Wire layouts: the specification language for PDU formats.  A layout is the sequence of fields
    of a PDU in transmission order, each a value and its width in bits, most significant bit
    first, as in the tables of the TETRA standard. *)
From Verif Require Import Base BitsLib BitBuffer BitBufferProofs BitBufferOps Codec CodecProofs.
Open Scope N_scope.

Definition layout := list (N * nat).
(** The bits on the wire. *)
Definition enc (L : layout) : list bool := flat_map (fun f => bits_of (snd f) (fst f)) L.
(** Every value fits its field. *)
Definition fits (L : layout) : bool := forallb (fun f => fst f <? 2 ^ N.of_nat (snd f)) L.
(** Total width. *)
Definition width (L : layout) : nat := list_sum (map snd L).
(** A flag. *)
Definition fl (x : bool) : N * nat := (N.b2n x, 1%nat).
(** An element preceded by a one-bit presence flag. *)
Definition optl {A} (x : option A) (f : A -> layout) : layout :=
  match x with Some v => (1, 1%nat) :: f v | None => [(0, 1%nat)] end.

(** [carries w r x y L]: the writer [w] of value [x] puts exactly [L] on the wire, in any buffer
    with room, and the reader [r], given [L] followed by anything, returns [y] having consumed
    exactly [L]. *)
Definition carries {A} (w : wr) (r : reader A) (y : A) (L : layout) : Prop :=
  writes w (enc L) /\ reads r (enc L) y.
