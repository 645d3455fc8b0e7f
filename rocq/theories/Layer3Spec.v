(** Which layer 3 messages of a radio are dangerous to the base station (C47), told on the bits of the message alone,
    without the parsers of the model. *)
From Verif Require Import Base BitsLib.
Open Scope nat_scope.

(** [n] bits of [l] from position [a] on, as a number; whether bit [a] is there and set. *)
Definition field (a n : nat) (l : list bool) : N := bits_val (firstn n (skipn a l)).
Definition bit (a : nat) (l : list bool) : bool := nth a l false.

(** ** Optional elements with an identifier and a length (EN 300 392-2, annex E.1: types 3 and 4) *)

(** [c] is a sequence of such elements: a set bit, four bits of identifier, eleven bits of length, and so many bits.
    [element_in c id len rest]: one of them has identifier [id] and announces [len] bits, and [rest] is everything
    in the message behind that header. *)
Inductive element_in : list bool -> N -> N -> list bool -> Prop :=
| element_first id len rest : (id < 16)%N -> (len < 2048)%N -> element_in (true :: bits_of 4 id ++ bits_of 11 len ++ rest) id len rest
| element_later i n r id len rest : (i < 16)%N -> (n < 2048)%N -> N.to_nat n <= length r ->
    element_in (skipn (N.to_nat n) r) id len rest ->
    element_in (true :: bits_of 4 i ++ bits_of 11 n ++ r) id len rest.

(** Something is wrong with one of the elements. *)
Definition some_element (Q : N -> N -> list bool -> Prop) (c : list bool) : Prop :=
  exists id len rest, element_in c id len rest /\ Q id len rest.

(** It announces more than the rest of the message, and at least 64 bits of the message are left. *)
Definition overlong (id len : N) (rest : list bool) : Prop := 64 <= length rest < N.to_nat len.
(** A type 4 element, with identifier 8, announces less than the six bits of its own repeat count. *)
Definition stunted (id len : N) (rest : list bool) : Prop := id = 8%N /\ (len < 6)%N /\ 6 <= length rest.
(** A group identity location demand, with identifier 3, begins with such an element behind its two flags. *)
Definition stunted_inside (id len : N) (rest : list bool) : Prop := id = 3%N /\
  exists reserved mode n r, rest = reserved :: mode :: true :: true :: bits_of 4 8 ++ bits_of 11 n ++ r /\ stunted 8 n r.

(** ** CMCE *)

(** Length of the address of the called party, by its type. *)
Definition party (ty : N) : nat := if (ty =? 0)%N then 8 else if (ty =? 1)%N then 24 else if (ty =? 2)%N then 48 else 0.
(** Length of the user data of a short data message that begins at [k]. *)
Definition user_data (k : nat) (l : list bool) : nat :=
  let ty := field k 2 l in
  2 + (if (ty =? 0)%N then 16 else if (ty =? 1)%N then 32 else if (ty =? 2)%N then 64 else 11 + N.to_nat (field (k + 2) 11 l)).
(** The bits in front of the o-bit, which says whether optional elements follow: U-DISCONNECT and U-RELEASE,
    U-TX-CEASED, U-TX-DEMAND, U-SETUP, U-STATUS, U-SDS-DATA. *)
Definition cmce_head (l : list bool) : option nat :=
  let ty := field 0 5 l in
  if (ty =? 4)%N || (ty =? 6)%N then Some 24
  else if (ty =? 9)%N then Some 19
  else if (ty =? 10)%N then Some 23
  else if (ty =? 7)%N then Some (28 + party (field 26 2 l))
  else if (ty =? 8)%N then Some (11 + party (field 9 2 l) + 16)
  else if (ty =? 15)%N then let k := 11 + party (field 9 2 l) in Some (k + user_data k l)
  else None.

(** A U-STATUS with the one status value that is not a number of its own (31743). *)
Definition forbidden_status (l : list bool) : Prop := field 0 5 l = 8%N /\ field (11 + party (field 9 2 l)) 16 l = 31743%N.

Definition hostile_cmce (l : list bool) : Prop :=
  forbidden_status l \/
  exists h, cmce_head l = Some h /\ bit h l = true /\ some_element overlong (skipn (h + 1) l).

(** ** MM *)

(** What follows a type 2 element of [w] bits: one bit says whether it is there. *)
Definition type2 (w : nat) (l : list bool) : list bool :=
  match l with true :: r => skipn w r | false :: r => r | [] => [] end.

Definition hostile_mm (l : list bool) : Prop :=
  let ty := field 0 4 l in
  (* U-ITSI-DETACH *)
  (ty = 1%N /\ bit 4 l = true /\ some_element overlong (type2 24 (skipn 5 l))) \/
  (* U-LOCATION-UPDATE-DEMAND *)
  (ty = 2%N /\ let h := if bit 8 l then 19 else 9 in bit h l = true /\
     some_element (fun id len rest => overlong id len rest \/ stunted_inside id len rest)
       (type2 24 (type2 24 (type2 15 (type2 3 (type2 24 (skipn (h + 1) l))))))) \/
  (* U-ATTACH/DETACH-GROUP-IDENTITY *)
  (ty = 7%N /\ bit 6 l = true /\ some_element (fun id len rest => overlong id len rest \/ stunted id len rest) (skipn 7 l)).
