(** Property theorems for C05 and C06 (type 2 / type 3 / type 4 PDU elements). *)
From Verif Require Import Base BitsLib BitBuffer BitBufferProofs BitBufferOps Codec CodecProofs TypedFields TypedFieldsProofs TypedFieldsFacts.
Open Scope N_scope.

(** C05: every PDU body (o-bit, any list of type 2 elements, any list of type 3/4 elements with
    distinct identifiers, trailing m-bit) whose values are within the wire format's limits
    round-trips: there is a bit string [l] that the writer appends to any buffer with room, and
    which the parser, whatever follows it, turns back into the same values with the cursor
    exactly after [l].  "Partial": the limits ([ok2], [ok34]: placeholder type 3 elements of at
    most 64 bits, fewer than 64 type 4 elements, content below 2^11 bits) are needed. *)
Theorem C05_body_roundtrip_partial :
  forall (V : Type) (obit : bool) (f2 : list (field2 V)) (f34 : list (field34 V)) (v2 : list (val2 V)) (v34 : list (val34 V)),
    Forall2 ok2 f2 v2 -> Forall2 ok34 f34 v34 -> NoDup (map f34_id f34) ->
    (obit = false -> Forall (fun v => absent2 v = true) v2 /\ Forall (fun v => absent34 v = true) v34) ->
    exists l,
      (forall b, wf b -> room b (length l) ->
         exists b', write_body obit f2 f34 v2 v34 b = Ok b' /\ wrote b b' l) /\
      (forall b rest, wf b -> remaining b = l ++ rest ->
         parse_body f2 f34 b = Ok ((v2, v34), adv b (length l))).
Proof. exact @body_roundtrip. Qed.
Print Assumptions C05_body_roundtrip_partial.

Example C05_hypotheses_met :
  let f2 := [F2g 5; F2g 24; F2s (fun v => wfield v 3) (rfield 3)] in
  let v2 := [V2g None; V2g (Some 1234567); V2s (Some 5)] in
  let f34 := [F3g 2; F3s 3 (fun v => wfield v 7) (rfield 7); F4s 8 (fun v => wfield v 30) (rfield 30); F3g 15] in
  let v34 := [V3g (Some (mk_t3g 2 17 99999)); V3s None; V4s (Some [1; 2; 1000000000]); V3g None] in
  Forall2 ok2 f2 v2 /\ Forall2 ok34 f34 v34 /\ NoDup (map f34_id f34).
Proof. exact body_example. Qed.

(** C05 without the limits is false: a placeholder element that was parsed from a buffer cannot
    be written again when it is longer than 64 bits, and 64 round-tripping elements panic. *)
Theorem C05_type3_long_refuted :
  exists b e b', bb_from_bitstr (true :: bits_of 4 5 ++ bits_of 11 70 ++ bits_of 64 1 ++ bits_of 6 63 ++ [false]) = Ok b /\
    wf b /\ parse_type3_generic true 5 b = Ok (Some e, b') /\
    write_type3_generic true (Some e) 5 (bb_new_autoexpand 100) = Panic.
Proof. exact type3_generic_long_panics. Qed.
Print Assumptions C05_type3_long_refuted.
Theorem C05_type4_count_refuted :
  exists vs : list N, write_type4_struct true (Some vs) 8 (fun v => wfield v 4) (bb_new_autoexpand 100) = Panic /\
    forall v, In v vs -> roundtrips (wfield v 4) (rfield 4) v.
Proof. exact type4_too_many_panics. Qed.
Print Assumptions C05_type4_count_refuted.

(** C06: type 2 parsing and structured type 3 parsing never panic, whatever the bits, provided
    the element parser itself does not ([rsafe]). *)
Theorem C06_type2_type3_no_panic_partial :
  (forall obit n b, (n <= 64)%nat -> wf b -> parse_type2_generic obit n b <> Panic) /\
  (forall T obit (p : reader T) b, rsafe p -> wf b -> parse_type2_struct obit p b <> Panic) /\
  (forall T obit id (p : reader T) b, rsafe p -> wf b -> parse_type3_struct obit id p b <> Panic).
Proof. exact parsers_no_panic. Qed.
Print Assumptions C06_type2_type3_no_panic_partial.
Example C06_hypotheses_met : rsafe (rfield 24) /\ rsafe (parse_type2_generic true 5) /\ rsafe (parse_type3_struct true 3 (rfield 9)).
Proof. exact (conj (rsafe_field 24 ltac:(lia)) (conj (rsafe_type2_generic true 5 ltac:(lia)) (rsafe_type3_struct true 3 (rfield 9) (rsafe_field 9 ltac:(lia))))). Qed.

(** The other three parsers panic exactly on these inputs ([at_elem b id len k]: at the cursor an
    element header with identifier [id] and length field [len], followed by [k] bits). *)
Theorem C06_type3_generic_panics_exactly_partial :
  forall b id, wf b -> id < 16 ->
    (parse_type3_generic true id b = Panic <->
     exists len k, len < 2048 /\ at_elem b id len k /\ (64 <= k < N.to_nat len)%nat).
Proof. exact type3_generic_panics_iff. Qed.
Print Assumptions C06_type3_generic_panics_exactly_partial.
Theorem C06_type4_struct_panics_exactly_partial :
  forall T b id (p : reader T), wf b -> id < 16 -> rsafe p ->
    (parse_type4_struct true id p b = Panic <->
     exists len k, len < 6 /\ at_elem b id len k /\ (6 <= k)%nat).
Proof. exact @type4_struct_panics_iff. Qed.
Print Assumptions C06_type4_struct_panics_exactly_partial.
Theorem C06_type4_generic_panics_exactly_partial :
  forall b id, wf b -> id < 16 ->
    (parse_type4_generic true id b = Panic <->
     exists len k, len < 2048 /\ at_elem b id len k /\ (6 <= k)%nat /\
       (len < 6 \/ (70 <= k < N.to_nat len)%nat)).
Proof. exact type4_generic_panics_iff. Qed.
Print Assumptions C06_type4_generic_panics_exactly_partial.

(** Finding: bit strings of 22 and 80 bits that bring the parsers down. *)
Theorem C06_type4_hostile_refuted :
  exists b, bb_from_bitstr evil4 = Ok b /\ wf b /\
    forall T (p : reader T), parse_type4_struct true 8 p b = Panic /\ parse_type4_generic true 8 b = Panic.
Proof. exact type4_hostile. Qed.
Print Assumptions C06_type4_hostile_refuted.
Theorem C06_type3_hostile_refuted :
  exists b, bb_from_bitstr evil3 = Ok b /\ wf b /\ parse_type3_generic true 5 b = Panic.
Proof. exact type3_hostile. Qed.
Print Assumptions C06_type3_hostile_refuted.
