(** Model of crates/tetra-core/src/typed_pdu_fields.rs: optional (type 2), and identified
    (type 3 / type 4) PDU elements.  Tracing calls are dropped; [E: Into<u64>] identifiers are [N];
    the closures [parser]/[writer] are readers and writers. *)
From Verif Require Import Base BitBuffer Codec.
Open Scope N_scope.

(** typed_pdu_fields.rs:2-8 *)
Record type4_generic := mk_t4g { t4_id : N; t4_len : nat; t4_elems : nat; t4_data : N }.
(** typed_pdu_fields.rs:10-16 *)
Record type3_generic := mk_t3g { t3_id : N; t3_len : nat; t3_data : N }.

(** typed_pdu_fields.rs:22-51 delimiters: read_obit/read_pbit/read_mbit and the writers *)
Definition read_obit : reader bool := rflag.
Definition read_pbit : reader bool := rflag.
Definition read_mbit : reader bool := rflag.
Definition write_obit (v : N) : wr := write_bit v.
Definition write_pbit (v : N) : wr := write_bit v.
Definition write_mbit (v : N) : wr := write_bit v.

(** typed_pdu_fields.rs:60-85 [parse_type2_generic] *)
Definition parse_type2_generic (obit : bool) (num_bits : nat) : reader (option N) :=
  if negb obit then rret None else
  p <~ read_pbit ;;
  if p then (v <~ rfield num_bits ;; rret (Some v)) else rret None.

(** typed_pdu_fields.rs:88-111 [parse_type2_struct] *)
Definition parse_type2_struct {T} (obit : bool) (parser : reader T) : reader (option T) :=
  if negb obit then rret None else
  p <~ read_pbit ;;
  if p then (v <~ parser ;; rret (Some v)) else rret None.

Definition is_none {T} (x : option T) : bool := match x with None => true | Some _ => false end.
Definition is_some {T} (x : option T) : bool := match x with None => false | Some _ => true end.

(** typed_pdu_fields.rs:114-132 [write_type2_generic] *)
Definition write_type2_generic (obit : bool) (value : option N) (len : nat) : wr :=
  if negb obit then wassert (is_none value) else
  match value with
  | Some v => write_pbit 1 >> wfield v len
  | None => write_pbit 0
  end.

(** typed_pdu_fields.rs:135-158 [write_type2_struct] *)
Definition write_type2_struct {T} (obit : bool) (value : option T) (writer : T -> wr) : wr :=
  if negb obit then wassert (is_none value) else
  match value with
  | Some v => write_pbit 1 >> writer v
  | None => write_pbit 0
  end.

(** typed_pdu_fields.rs:163-195 [peek_type34_mbit_and_id] *)
Definition peek_type34_mbit_and_id (expected_id : N) : reader bool := fun b =>
  mbit <- peek_bits b 1 ;;
  match mbit with
  | None => Err EBufferEnded
  | Some m =>
      if m =? 0 then Ok (false, b)
      else if m =? 1 then
        id_bits <- peek_bits_posoffset b 1 4 ;;
        match id_bits with
        | Some id => Ok (id =? expected_id, b)
        | None => Err EBufferEnded
        end
      else Panic
  end.

(** [buffer.seek_rel(n)] as a step *)
Definition rseek_rel (n : Z) : reader unit := fun b => b' <- seek_rel n b ;; Ok (tt, b').
(** [buffer.get_pos()] *)
Definition rget_pos : reader nat := fun b => p <- get_pos b ;; Ok (p, b).

(** typed_pdu_fields.rs:200-247 [parse_type3_generic] *)
Definition parse_type3_generic (obit : bool) (expected_id : N) : reader (option type3_generic) :=
  if negb obit then rret None else
  present <~ peek_type34_mbit_and_id expected_id ;;
  if negb present then rret None else
  rseek_rel 5 ;~
  len_n <~ rfield 11 ;;
  let len_bits := N.to_nat len_n in
  let read_bits := (if 64 <? len_bits then 64 else len_bits)%nat in
  data <~ rfield read_bits ;;
  (if (64 <? len_bits)%nat then rseek_rel (Z.of_nat len_bits - 64) else rret tt) ;~
  rret (Some (mk_t3g expected_id len_bits data)).

(** typed_pdu_fields.rs:251-308 [parse_type3_struct]; the subtraction computing the reported
    length (lines 297, 301) cannot underflow and its value is dropped with the error payload. *)
Definition parse_type3_struct {T} (obit : bool) (expected_id : N) (parser : reader T) : reader (option T) :=
  if negb obit then rret None else
  present <~ peek_type34_mbit_and_id expected_id ;;
  if negb present then rret None else
  rseek_rel 5 ;~
  len_n <~ rfield 11 ;;
  start_pos <~ rget_pos ;;
  result <~ parser ;;
  pos <~ rget_pos ;;
  if negb (start_pos + N.to_nat len_n =? pos)%nat then
    rassert (start_pos <=? pos)%nat ;~ rerr EInconsistentLength
  else rret (Some result).

(** typed_pdu_fields.rs:311-314 [write_type34_header_generic] *)
Definition write_type34_header_generic (field_type : N) : wr :=
  write_mbit 1 >> wfield field_type 4.

(** [let pos = buffer.get_raw_pos(); k(pos)] *)
Definition w_with_pos (k : nat -> wr) : wr := fun b => k (bpos b) b.

(** typed_pdu_fields.rs:317-364 [write_type3_struct] *)
Definition write_type3_struct {T} (obit : bool) (value : option T) (field_id : N) (writer : T -> wr) : wr :=
  if (negb obit && is_some value)%bool then werr EInvalidValue else
  match value with
  | Some elem =>
      write_type34_header_generic field_id >>
      w_with_pos (fun pos_len_field =>
      wfield 0 11 >>
      writer elem >>
      w_with_pos (fun pos_end =>
      let len_bits := N.of_nat (pos_end - pos_len_field - 11) in
      set_raw_pos pos_len_field >>
      wfield len_bits 11 >>
      set_raw_pos pos_end))
  | None => wret
  end.

(** typed_pdu_fields.rs:367-396 [write_type3_generic] *)
Definition write_type3_generic (obit : bool) (value : option type3_generic) (field_id : N) : wr :=
  if (negb obit && is_some value)%bool then werr EInvalidValue else
  match value with
  | Some elem =>
      write_type34_header_generic field_id >>
      wfield (N.of_nat (t3_len elem)) 11 >>
      wfield (t3_data elem) (t3_len elem)
  | None => wret
  end.

(** typed_pdu_fields.rs:398-435 [parse_type4_header]; [len_bits - 6] underflow panics (debug build) *)
Definition parse_type4_header (expected_id : N) : reader (option (nat * nat)) :=
  present <~ peek_type34_mbit_and_id expected_id ;;
  if negb present then rret None else
  rseek_rel 5 ;~
  len_n <~ rfield 11 ;;
  num_elems <~ rfield 6 ;;
  data_len <~ rlift (sub_checked (N.to_nat len_n) 6) ;;
  rret (Some (N.to_nat num_elems, data_len)).

(** typed_pdu_fields.rs:461-464: the loop [for _ in 0..num_elems] *)
Fixpoint parse_elems {T} (num_elems : nat) (parser : reader T) : reader (list T) :=
  match num_elems with
  | O => rret []
  | S n => elem <~ parser ;; rest <~ parse_elems n parser ;; rret (elem :: rest)
  end.

(** typed_pdu_fields.rs:438-484 [parse_type4_struct] *)
Definition parse_type4_struct {T} (obit : bool) (expected_id : N) (parser : reader T) : reader (option (list T)) :=
  if negb obit then rret None else
  h <~ parse_type4_header expected_id ;;
  match h with
  | None => rret None
  | Some (num_elems, len_bits) =>
      start_pos <~ rget_pos ;;
      elems <~ parse_elems num_elems parser ;;
      pos <~ rget_pos ;;
      if negb (start_pos + len_bits =? pos)%nat then
        rassert (start_pos <=? pos)%nat ;~ rerr EInconsistentLength
      else rret (Some elems)
  end.

(** typed_pdu_fields.rs:488-527 [parse_type4_generic] *)
Definition parse_type4_generic (obit : bool) (expected_id : N) : reader (option type4_generic) :=
  if negb obit then rret None else
  h <~ parse_type4_header expected_id ;;
  match h with
  | None => rret None
  | Some (num_elems, len_bits) =>
      let read_bits := (if 64 <? len_bits then 64 else len_bits)%nat in
      val <~ rfield read_bits ;;
      (if (64 <? len_bits)%nat then rseek_rel (Z.of_nat len_bits - 64) else rret tt) ;~
      rret (Some (mk_t4g expected_id len_bits num_elems val))
  end.

(** typed_pdu_fields.rs:560-562: [for elem in elems] *)
Fixpoint write_elems {T} (writer : T -> wr) (elems : list T) : wr :=
  match elems with
  | [] => wret
  | e :: t => writer e >> write_elems writer t
  end.

(** typed_pdu_fields.rs:530-582 [write_type4_struct] *)
Definition write_type4_struct {T} (obit : bool) (value : option (list T)) (field_id : N) (writer : T -> wr) : wr :=
  if (negb obit && is_some value)%bool then werr EInvalidValue else
  match value with
  | Some elems =>
      write_type34_header_generic field_id >>
      w_with_pos (fun pos_len_field =>
      wfield 0 17 >>
      write_elems writer elems >>
      w_with_pos (fun pos_end =>
      let len_bits := N.of_nat (pos_end - pos_len_field - 11) in
      let num_elems := N.of_nat (length elems) in
      set_raw_pos pos_len_field >>
      wfield len_bits 11 >>
      wfield num_elems 6 >>
      set_raw_pos pos_end))
  | None => wret
  end.

(** typed_pdu_fields.rs:585-608 [write_type4_todo] *)
Definition write_type4_todo (obit : bool) (value : option type4_generic) (field_id : N) : wr :=
  if (negb obit && is_some value)%bool then werr EInvalidValue else
  match value with
  | Some _ => wpanic
  | None => wret
  end.
