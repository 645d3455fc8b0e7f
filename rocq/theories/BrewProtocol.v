(** Model of crates/tetra-entities/src/net_brew/protocol.rs: the messages of the network protocol.

    Bytes are numbers below 256.  A [Uuid] is the number its sixteen bytes write, most significant first
    (uuid [from_bytes], [as_bytes]); a [String] is its bytes.  [TooShort] keeps no length. *)
From Verif Require Import Base CmceFields.
Open Scope N_scope.

(** ** Messages (51-136) *)

(** 61-69 *)
Record brew_subscriber := mk_brew_subscriber {
  bs_type : N; bs_number : N; bs_time : N; bs_fraction : N; bs_groups : list N }.
(** 71-79 *)
Record brew_group_tx := mk_brew_group_tx {
  gt_source : N; gt_destination : N; gt_priority : N; gt_access : N; gt_service : N }.
(** 89-102 *)
Inductive brew_payload :=
| BpGroupTx (g : brew_group_tx)
| BpCause (c : N)
| BpEmpty
| BpShortTransfer (source destination : N)
| BpRaw (l : list N).
(** 81-87 *)
Record brew_call := mk_brew_call { bc_state : N; bc_id : N; bc_payload : brew_payload }.
(** 104-111 *)
Record brew_frame := mk_brew_frame { bf_type : N; bf_id : N; bf_length_bits : N; bf_data : list N }.
(** 51-59; the records of 113-125 in place *)
Inductive brew_message :=
| BmSubscriber (m : brew_subscriber)
| BmCallControl (m : brew_call)
| BmFrame (m : brew_frame)
| BmError (error_type : N) (data : list N)
| BmService (service_type : N) (json : list N).
(** 129-136 *)
Inductive brew_parse_error := BeTooShort | BeUnknownClass (c : N) | BeInvalidUtf8 | BeInvalidUuid.

(** ** Reading *)

(** [data[i]] *)
Definition at_ (data : list N) (i : nat) : res N := unwrap (nth_error data i).
(** [&data[a..]] *)
Definition from_ (data : list N) (a : nat) : res (list N) :=
  if (a <=? length data)%nat then Ok (skipn a data) else Panic.
(** [from_le_bytes] of the [n] bytes at [offset] (149-171 [read_u16_le], [read_u32_le], [read_u64_le]: n = 2, 4, 8) *)
Fixpoint read_le (n : nat) (data : list N) (offset : nat) : res N :=
  match n with
  | O => Ok 0
  | S n' => b <- at_ data offset ;; t <- read_le n' data (S offset) ;; Ok (b + 256 * t)
  end.
(** [Uuid::from_bytes] *)
Definition uuid_from_bytes (l : list N) : N := fold_left (fun v b => v * 256 + b) l 0.
(** 240-241, 303-304: [data[2..18].try_into()], then [Uuid::from_bytes] *)
Definition read_uuid (data : list N) : res (N + brew_parse_error) :=
  if (18 <=? length data)%nat then
    let l := firstn 16 (skipn 2 data) in
    Ok (if (length l =? 16)%nat then inl (uuid_from_bytes l) else inr BeInvalidUuid)
  else Panic.

(** [std::str::from_utf8] succeeds: the table of core::str::validations *)
Definition cont (b : N) : bool := (128 <=? b) && (b <=? 191).
Fixpoint utf8_ok (l : list N) : bool :=
  match l with
  | [] => true
  | a :: t =>
      if a <? 128 then utf8_ok t
      else match t with
      | b :: t =>
          if (194 <=? a) && (a <=? 223) then cont b && utf8_ok t
          else match t with
          | c :: t =>
              if ((a =? 224) && (160 <=? b) && (b <=? 191)) || ((225 <=? a) && (a <=? 236) && cont b) ||
                 ((a =? 237) && (128 <=? b) && (b <=? 159)) || ((238 <=? a) && (a <=? 239) && cont b)
              then cont c && utf8_ok t
              else match t with
              | d :: t =>
                  (((a =? 240) && (144 <=? b) && (b <=? 191)) || ((241 <=? a) && (a <=? 243) && cont b) ||
                   ((a =? 244) && (128 <=? b) && (b <=? 143))) && cont c && cont d && utf8_ok t
              | [] => false
              end
          | [] => false
          end
      | [] => false
      end
  end.

(** 218-223, the loop; [fuel] is a bound on the number of turns *)
Fixpoint read_groups (fuel : nat) (data : list N) (offset : nat) : res (list N) :=
  if (offset + 4 <=? length data)%nat then
    match fuel with
    | O => Panic
    | S f => g <- read_le 4 data offset ;; t <- read_groups f data (offset + 4) ;; Ok (g :: t)
    end
  else Ok [].

Definition parsed := (brew_message + brew_parse_error)%type.
(** 207-232 *)
Definition parse_subscriber (msg_type : N) (data : list N) : res parsed :=
  if (length data <? 18)%nat then Ok (inr BeTooShort)
  else
    number <- read_le 4 data 2 ;;
    time <- read_le 8 data 6 ;;
    fraction <- read_le 4 data 14 ;;
    groups <- read_groups (length data) data 18 ;;
    Ok (inl (BmSubscriber (mk_brew_subscriber msg_type number time fraction groups))).

(** 245-288 *)
Definition parse_payload (call_state : N) (data : list N) : res (brew_payload + brew_parse_error) :=
  if call_state =? 2 then
    if (length data <? 12)%nat then Ok (inr BeTooShort)
    else
      source <- read_le 4 data 0 ;;
      destination <- read_le 4 data 4 ;;
      priority <- at_ data 8 ;;
      access <- at_ data 9 ;;
      service <- read_le 2 data 10 ;;
      Ok (inl (BpGroupTx (mk_brew_group_tx source destination priority access service)))
  else if (call_state =? 3) || (call_state =? 6) || (call_state =? 10) then
    if (length data =? 0)%nat then Ok (inr BeTooShort) else c <- at_ data 0 ;; Ok (inl (BpCause c))
  else if (call_state =? 5) || (call_state =? 7) then Ok (inl BpEmpty)
  else if call_state =? 11 then
    if (length data <? 8)%nat then Ok (inr BeTooShort)
    else source <- read_le 4 data 0 ;; destination <- read_le 4 data 4 ;; Ok (inl (BpShortTransfer source destination))
  else Ok (inl (BpRaw data)).
(** 234-295 *)
Definition parse_call_control (call_state : N) (data : list N) : res parsed :=
  if (length data <? 18)%nat then Ok (inr BeTooShort)
  else
    id <- read_uuid data ;;
    match id with
    | inr e => Ok (inr e)
    | inl id =>
        payload_data <- from_ data 18 ;;
        p <- parse_payload call_state payload_data ;;
        Ok (match p with
            | inr e => inr e
            | inl p => inl (BmCallControl (mk_brew_call call_state id p))
            end)
    end.
(** 297-315 *)
Definition parse_frame (frame_type : N) (data : list N) : res parsed :=
  if (length data <? 20)%nat then Ok (inr BeTooShort)
  else
    id <- read_uuid data ;;
    match id with
    | inr e => Ok (inr e)
    | inl id =>
        n <- read_le 2 data 18 ;;
        frame_data <- from_ data 20 ;;
        Ok (inl (BmFrame (mk_brew_frame frame_type id n frame_data)))
    end.
(** 317-322 *)
Definition parse_error (error_type : N) (data : list N) : res parsed :=
  l <- from_ data 2 ;; Ok (inl (BmError error_type l)).
(** 328-329: the bytes before the first zero *)
Fixpoint before_nul (l : list N) : list N :=
  match l with [] => [] | b :: t => if b =? 0 then [] else b :: before_nul t end.
(** 324-335 *)
Definition parse_service (service_type : N) (data : list N) : res parsed :=
  l <- from_ data 2 ;;
  Ok (if utf8_ok (before_nul l) then inl (BmService service_type (before_nul l)) else inr BeInvalidUtf8).

(** 189-205 *)
Definition parse_brew_message (data : list N) : res parsed :=
  if (length data <? 2)%nat then Ok (inr BeTooShort)
  else
    kind <- at_ data 0 ;;
    msg_type <- at_ data 1 ;;
    if kind =? 240 then parse_subscriber msg_type data
    else if kind =? 241 then parse_call_control msg_type data
    else if kind =? 242 then parse_frame msg_type data
    else if kind =? 243 then parse_error msg_type data
    else if kind =? 244 then parse_service msg_type data
    else Ok (inr (BeUnknownClass kind)).

(** ** Writing *)

(** [val.to_le_bytes()] of an integer of [n] bytes (173-186) *)
Fixpoint le_bytes (n : nat) (v : N) : list N :=
  match n with O => [] | S k => v mod 256 :: le_bytes k (v / 256) end.
(** The time of day (341-343 and the like) is an argument: seconds and nanoseconds. *)
Record now := mk_now { now_secs : N; now_nanos : N }.

(** 340-352: the groups are not written *)
Definition build_subscriber_register (n : now) (issi : N) (groups : list N) : list N :=
  240 :: 1 :: le_bytes 4 issi ++ le_bytes 8 (now_secs n) ++ le_bytes 4 (now_nanos n).
(** 355-367 *)
Definition build_subscriber_reregister (n : now) (issi : N) : list N :=
  240 :: 2 :: le_bytes 4 issi ++ le_bytes 8 (now_secs n) ++ le_bytes 4 (now_nanos n).
(** 370-385 *)
Definition build_subscriber_affiliate (n : now) (issi : N) (groups : list N) : list N :=
  240 :: 8 :: le_bytes 4 issi ++ le_bytes 8 (now_secs n) ++ le_bytes 4 (now_nanos n) ++ flat_map (le_bytes 4) groups.
(** 388-403 *)
Definition build_subscriber_deaffiliate (n : now) (issi : N) (groups : list N) : list N :=
  240 :: 9 :: le_bytes 4 issi ++ le_bytes 8 (now_secs n) ++ le_bytes 4 (now_nanos n) ++ flat_map (le_bytes 4) groups.
(** 406-418 *)
Definition build_subscriber_deregister (n : now) (issi : N) : list N :=
  240 :: 0 :: le_bytes 4 issi ++ le_bytes 8 (now_secs n) ++ le_bytes 4 (now_nanos n).
(** [uuid.as_bytes()] *)
Definition uuid_as_bytes (u : N) : list N := be_bytes 16 u.
(** 422-434 *)
Definition build_group_tx (uuid source dest priority service : N) : list N :=
  241 :: 2 :: uuid_as_bytes uuid ++ le_bytes 4 source ++ le_bytes 4 dest ++ [priority; 0] ++ le_bytes 2 service.
(** 439-448 *)
Definition build_voice_frame (uuid length_bits : N) (data : list N) : list N :=
  242 :: 0 :: uuid_as_bytes uuid ++ le_bytes 2 length_bits ++ data.
(** 451-458 *)
Definition build_group_idle (uuid cause : N) : list N := 241 :: 3 :: uuid_as_bytes uuid ++ [cause].
(** 461-472 *)
Definition build_short_transfer (uuid source dest : N) : list N :=
  241 :: 11 :: uuid_as_bytes uuid ++ le_bytes 4 source ++ le_bytes 4 dest ++ repeat 0 32.
(** 475-484 *)
Definition build_sds_frame (uuid length_bits : N) (data : list N) : list N :=
  242 :: 1 :: uuid_as_bytes uuid ++ le_bytes 2 length_bits ++ data.
(** 488-496 *)
Definition build_sds_report (uuid status : N) : list N := 242 :: 2 :: uuid_as_bytes uuid ++ le_bytes 2 8 ++ [status].

(** serde_json [to_string] of a list of numbers: decimal digits, commas, brackets; a u32 has at most ten digits *)
Fixpoint decimal (fuel : nat) (v : N) : list N :=
  match fuel with
  | O => []
  | S f => if v <? 10 then [48 + v] else decimal f (v / 10) ++ [48 + v mod 10]
  end.
Fixpoint json_items (l : list N) : list N :=
  match l with
  | [] => []
  | [v] => decimal 10 v
  | v :: t => decimal 10 v ++ 44 :: json_items t
  end.
(** 499-507 *)
Definition build_query_subscribers (issis : list N) : list N := 244 :: 1 :: (91 :: json_items issis ++ [93]) ++ [0].
