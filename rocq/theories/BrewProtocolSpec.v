(** What a message of the network protocol looks like, written independently of the model: sequences of bytes,
    little-endian numbers, sixteen-byte call identifiers, UTF-8 text. *)
From Verif Require Import Base BrewProtocol.
Open Scope N_scope.

Definition byte (b : N) : Prop := b < 256.
(** [l] writes [v], least significant byte first / last *)
Fixpoint little (l : list N) (v : N) : Prop :=
  match l with [] => v = 0 | b :: t => exists w, b < 256 /\ v = b + 256 * w /\ little t w end.
Definition big (l : list N) (v : N) : Prop := little (rev l) v.
(** [l] is [n] bytes that write [v] *)
Definition num_le (n : nat) (l : list N) (v : N) : Prop := length l = n /\ little l v.
Definition num_be (n : nat) (l : list N) (v : N) : Prop := length l = n /\ big l v.
(** numbers one after the other *)
Inductive numbers : list N -> list N -> Prop :=
| numbers_nil : numbers [] []
| numbers_cons l v t w : num_le 4 l v -> numbers t w -> numbers (l ++ t) (v :: w).

(** UTF-8 (RFC 3629): Unicode scalar values and their bytes *)
Definition scalar (c : N) : Prop := c < 0xD800 \/ 0xE000 <= c < 0x110000.
Definition utf8 (c : N) : list N :=
  if c <? 0x80 then [c]
  else if c <? 0x800 then [0xC0 + c / 64; 0x80 + c mod 64]
  else if c <? 0x10000 then [0xE0 + c / 4096; 0x80 + c / 64 mod 64; 0x80 + c mod 64]
  else [0xF0 + c / 262144; 0x80 + c / 4096 mod 64; 0x80 + c / 64 mod 64; 0x80 + c mod 64].
Definition text (l : list N) : Prop := exists cs, Forall scalar cs /\ l = flat_map utf8 cs.

(** The payload of a call control message, by its type; what follows is ignored, except for types nothing is known of. *)
Inductive payload_bytes : N -> list N -> brew_payload -> Prop :=
| pb_group_tx s d p a v s' d' v' rest : num_le 4 s s' -> num_le 4 d d' -> byte p -> byte a -> num_le 2 v v' ->
    payload_bytes 2 (s ++ d ++ [p; a] ++ v ++ rest) (BpGroupTx (mk_brew_group_tx s' d' p a v'))
| pb_cause st c rest : In st [3; 6; 10] -> byte c -> payload_bytes st (c :: rest) (BpCause c)
| pb_empty st rest : In st [5; 7] -> payload_bytes st rest BpEmpty
| pb_short_transfer s d s' d' rest : num_le 4 s s' -> num_le 4 d d' ->
    payload_bytes 11 (s ++ d ++ rest) (BpShortTransfer s' d')
| pb_raw st l : ~ In st [2; 3; 5; 6; 7; 10; 11] -> payload_bytes st l (BpRaw l).

(** [bytes data m]: [data] is a message [m]. *)
Inductive bytes : list N -> brew_message -> Prop :=
| b_subscriber ty num tm fr grp rest num' tm' fr' grp' :
    num_le 4 num num' -> num_le 8 tm tm' -> num_le 4 fr fr' -> numbers grp grp' -> (length rest < 4)%nat ->
    bytes (0xF0 :: ty :: num ++ tm ++ fr ++ grp ++ rest) (BmSubscriber (mk_brew_subscriber ty num' tm' fr' grp'))
| b_call st id id' l p : num_be 16 id id' -> payload_bytes st l p ->
    bytes (0xF1 :: st :: id ++ l) (BmCallControl (mk_brew_call st id' p))
| b_frame ty id id' n n' data : num_be 16 id id' -> num_le 2 n n' ->
    bytes (0xF2 :: ty :: id ++ n ++ data) (BmFrame (mk_brew_frame ty id' n' data))
| b_error ty data : bytes (0xF3 :: ty :: data) (BmError ty data)
| b_service ty l rest : text l -> ~ In 0 l -> rest = [] \/ (exists t, rest = 0 :: t) ->
    bytes (0xF4 :: ty :: l ++ rest) (BmService ty l).

(** The text [[1,22,333]]: what a reader of decimal numbers makes of it *)
Definition digits_value (l : list N) : N := fold_left (fun v d => v * 10 + (d - 48)) l 0.
Definition is_number (l : list N) (v : N) : Prop :=
  l <> [] /\ Forall (fun d => 48 <= d <= 57) l /\ digits_value l = v /\ (length l = 1%nat \/ hd 0 l <> 48).
Inductive json_numbers : list N -> list N -> Prop :=
| jn_one l v : is_number l v -> json_numbers l [v]
| jn_more l v t w : is_number l v -> json_numbers t w -> json_numbers (l ++ 44 :: t) (v :: w).
Definition json_list (l : list N) (w : list N) : Prop :=
  exists t, l = 91 :: t ++ [93] /\ (w = [] /\ t = [] \/ json_numbers t w).
