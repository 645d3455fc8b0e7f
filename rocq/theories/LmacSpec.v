(** Specifications for the lower MAC, independent of the code's tables and loops. *)
From Verif Require Import Base.

(** ** Scrambling sequence (EN 300 392-2 clause 8.2.5.2)
    p(k) is the sum modulo 2 of p(k - i) over the taps [i]; the 32 values before the first output are the
    scrambling code, least significant bit first.  [s] is the sequence with its 32 initial values in front. *)
Definition scramb_taps : list nat := [1; 2; 4; 5; 7; 8; 10; 11; 12; 16; 22; 23; 26; 32].
Definition is_scramb_seq (code : N) (s : nat -> bool) : Prop :=
  (forall j, (j < 32)%nat -> s j = N.testbit code (N.of_nat j)) /\
  (forall k, s (k + 32)%nat = fold_left xorb (map (fun i => s (k + 32 - i)%nat) scramb_taps) false).

(** ** Bit lists *)
Definition xorl (a b : list bool) : list bool := map (fun p => xorb (fst p) (snd p)) (combine a b).
(** Number of differing positions. *)
Fixpoint hamming (a b : list bool) : nat :=
  match a, b with x :: a, y :: b => ((if Bool.eqb x y then 0 else 1) + hamming a b)%nat | _, _ => 0%nat end.
(** Number of ones. *)
Fixpoint weight (l : list bool) : nat := match l with [] => 0%nat | x :: l => ((if x then 1 else 0) + weight l)%nat end.

(** ** Convolutional codes of constraint length 5 (EN 300 392-2 clause 8.2.3.1.1)
    Output [j] at time [k] is the sum of the message bits k, k-1, .., k-4 selected by generator polynomial [j]. *)
Definition conv_bit (poly m : list bool) (k : nat) : bool :=
  fold_left xorb (map (fun i => nth i poly false && (i <=? k)%nat && nth (k - i) m false) (seq 0 5)) false.
Definition conv_code (polys : list (list bool)) (m : list bool) : list bool :=
  flat_map (fun k => map (fun p => conv_bit p m k) polys) (seq 0 (length m)).
(** The last four bits (all of them, in a shorter message) are zero. *)
Definition terminated (m : list bool) : Prop := forall i, (length m - 4 <= i < length m)%nat -> nth i m false = false.
(** Number of received symbols (of those not erased) that differ from a codeword. *)
Fixpoint mismatches (c : list bool) (r : list (option bool)) : nat :=
  match c, r with
  | x :: c, Some y :: r => ((if Bool.eqb x y then 0 else 1) + mismatches c r)%nat
  | _ :: c, None :: r => mismatches c r
  | _, _ => 0%nat
  end.
(** Generator polynomials of the control channels (G1..G4, clause 8.2.3.1.1) and of speech (G1..G3, EN 300 395-2 clause 5.4.3.1) *)
Definition CCH_GENERATORS : list (list bool) :=
  [[true; true; false; false; true]; [true; false; true; true; true]; [true; true; true; false; true]; [true; true; false; true; true]].
Definition SPEECH_GENERATORS : list (list bool) :=
  [[true; true; true; true; true]; [true; true; false; true; true]; [true; false; true; false; true]].

(** ** Speech sensitivity classes (EN 300 395-2 clause 5.5.2, table 4)
    A block holds two speech frames of 137 bits.  The class 0 bits of a frame (numbered from 1) are sent without protection. *)
Definition SPEECH_CLASS0 : list nat :=
  [35; 36; 37; 38; 39; 40; 41; 42; 43; 47; 48; 56; 61; 62; 63; 64; 65; 66; 67; 68; 69; 70; 74; 75; 83; 88; 89; 90; 91; 92; 93; 94; 95; 96;
   97; 101; 102; 110; 115; 116; 117; 118; 119; 120; 121; 122; 123; 124; 128; 129; 137]%nat.
Definition unprotected (i : nat) : bool := existsb (Nat.eqb (i mod 137 + 1)%nat) SPEECH_CLASS0.

(** Decoder input for a received bit (None: the bit was not received) *)
Definition soft_value (o : option bool) : Z := match o with Some true => 1 | Some false => -1 | None => 0 end%Z.
