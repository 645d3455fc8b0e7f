(** Specification language for layer 3 PDUs with optional elements (EN 300 392-2, annex E):
    mandatory (type 1) fields, then an o-bit; when it is set, each type 2 element preceded by a presence bit,
    the type 3 elements that are present each with an m-bit, a 4-bit identifier and an 11-bit length, and a final m-bit 0. *)
From Verif Require Import Base BitsLib BitBuffer BitBufferOps Codec CodecProofs TypedFields.
Open Scope N_scope.

(** [n] bits, most significant first *)
Definition num (n : nat) (v : N) : list bool := bits_of n v.
Definition flag (x : bool) : list bool := [x].
(** a conditional field *)
Definition cond (n : nat) (o : option N) : list bool := match o with Some v => bits_of n v | None => [] end.
(** type 2 elements: numeric, or with given content *)
Definition t2 (n : nat) (o : option N) : list bool := match o with Some v => true :: bits_of n v | None => [false] end.
Definition t2s {T} (f : T -> list bool) (o : option T) : list bool := match o with Some v => true :: f v | None => [false] end.
(** a type 3 element of unspecified content *)
Definition t3 (id : N) (o : option type3_generic) : list bool :=
  match o with
  | Some e => true :: bits_of 4 id ++ bits_of 11 (N.of_nat (t3_len e)) ++ bits_of (t3_len e) (t3_data e)
  | None => []
  end.
(** o-bit, optional elements, final m-bit *)
Definition options (present : list bool) (body : list bool) : list bool :=
  if existsb id present then true :: body ++ [false] else [false].

Definition some {T} (o : option T) : bool := match o with Some _ => true | None => false end.

(** Values that can be put on the wire *)
Definition fit (n : nat) (v : N) : bool := v <? 2 ^ N.of_nat n.
Definition fito (n : nat) (o : option N) : bool := match o with Some v => fit n v | None => true end.
Definition fits_with {T} (p : T -> bool) (o : option T) : bool := match o with Some v => p v | None => true end.
(** a type 3 element whose content has at most 64 bits *)
Definition fit3 (id : N) (o : option type3_generic) : bool :=
  match o with
  | Some e => (t3_id e =? id) && (t3_len e <=? 64)%nat && fit (t3_len e) (t3_data e)
  | None => true
  end.

(** [conveys w r x l]: in any buffer with room the writer [w] appends exactly the bits [l], and the reader [r],
    given [l] followed by anything, returns [x] having consumed exactly [l]. *)
Definition conveys {A} (w : wr) (r : reader A) (x : A) (l : list bool) : Prop := writes w l /\ reads r l x.
