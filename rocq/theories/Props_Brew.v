(** Property theorems for C39: the messages of the network protocol. *)
From Verif Require Import Base BrewProtocol BrewProtocolSpec BrewProtocolProofs.
Open Scope N_scope.

(** C39: no sequence of numbers crashes the parser. *)
Theorem C39_no_crash : forall data, parse_brew_message data <> Panic.
Proof. exact parse_no_panic. Qed.
Print Assumptions C39_no_crash.

(** C39: the parser gives a message exactly for the bytes that are that message, by the specification of the wire
    format, and an error exactly for the bytes that are none. *)
Theorem C39_parse : forall data m, Forall byte data -> parse_brew_message data = Ok (inl m) <-> bytes data m.
Proof. exact parse_iff. Qed.
Print Assumptions C39_parse.
Theorem C39_parse_error : forall data e, Forall byte data -> parse_brew_message data = Ok (inr e) -> forall m, ~ bytes data m.
Proof. exact parse_err. Qed.
Print Assumptions C39_parse_error.
Example C39_parse_met :
  parse_brew_message (241 :: 2 :: repeat 7 16 ++ [1; 2; 3; 0; 100; 0; 0; 0; 9; 1; 44; 1; 255]) =
    Ok (inl (BmCallControl (mk_brew_call 2 0x07070707070707070707070707070707 (BpGroupTx (mk_brew_group_tx 197121 100 9 1 300))))) /\
  parse_brew_message [244; 1; 0xE2; 0x82; 0xAC; 0; 5] = Ok (inl (BmService 1 [0xE2; 0x82; 0xAC])) /\
  parse_brew_message [244; 1; 0xED; 0xA0; 0x80] = Ok (inr BeInvalidUtf8) /\
  parse_brew_message (241 :: 2 :: repeat 7 16 ++ [1; 2; 3; 0; 100; 0; 0; 0; 9; 1; 44]) = Ok (inr BeTooShort).
Proof. vm_compute. auto. Qed.

(** C39: what the builders build is read back with the same fields. *)
Theorem C39_subscriber_partial : forall n issi gs, u32 issi -> clock n -> Forall u32 gs ->
  parse_brew_message (build_subscriber_register n issi []) = Ok (inl (BmSubscriber (mk_brew_subscriber 1 issi (now_secs n) (now_nanos n) []))) /\
  parse_brew_message (build_subscriber_reregister n issi) = Ok (inl (BmSubscriber (mk_brew_subscriber 2 issi (now_secs n) (now_nanos n) []))) /\
  parse_brew_message (build_subscriber_affiliate n issi gs) = Ok (inl (BmSubscriber (mk_brew_subscriber 8 issi (now_secs n) (now_nanos n) gs))) /\
  parse_brew_message (build_subscriber_deaffiliate n issi gs) = Ok (inl (BmSubscriber (mk_brew_subscriber 9 issi (now_secs n) (now_nanos n) gs))) /\
  parse_brew_message (build_subscriber_deregister n issi) = Ok (inl (BmSubscriber (mk_brew_subscriber 0 issi (now_secs n) (now_nanos n) []))).
Proof. exact reads_subscriber. Qed.
Print Assumptions C39_subscriber_partial.
Theorem C39_group_tx : forall u s d p v, u128 u -> u32 s -> u32 d -> byte p -> v < 2^16 ->
  parse_brew_message (build_group_tx u s d p v) = Ok (inl (BmCallControl (mk_brew_call 2 u (BpGroupTx (mk_brew_group_tx s d p 0 v))))).
Proof. exact reads_group_tx. Qed.
Print Assumptions C39_group_tx.
Theorem C39_group_idle : forall u c, u128 u -> byte c ->
  parse_brew_message (build_group_idle u c) = Ok (inl (BmCallControl (mk_brew_call 3 u (BpCause c)))).
Proof. exact reads_group_idle. Qed.
Print Assumptions C39_group_idle.
Theorem C39_short_transfer : forall u s d, u128 u -> u32 s -> u32 d ->
  parse_brew_message (build_short_transfer u s d) = Ok (inl (BmCallControl (mk_brew_call 11 u (BpShortTransfer s d)))).
Proof. exact reads_short_transfer. Qed.
Print Assumptions C39_short_transfer.
Theorem C39_frames : forall u n data st, u128 u -> n < 2^16 -> Forall byte data -> byte st ->
  parse_brew_message (build_voice_frame u n data) = Ok (inl (BmFrame (mk_brew_frame 0 u n data))) /\
  parse_brew_message (build_sds_frame u n data) = Ok (inl (BmFrame (mk_brew_frame 1 u n data))) /\
  parse_brew_message (build_sds_report u st) = Ok (inl (BmFrame (mk_brew_frame 2 u 8 [st]))).
Proof. exact reads_frames. Qed.
Print Assumptions C39_frames.
(** The list of subscribers asked about is sent as text, and that text says these numbers. *)
Theorem C39_query : forall l, Forall u32 l -> exists json,
  parse_brew_message (build_query_subscribers l) = Ok (inl (BmService 1 json)) /\ json_list json l.
Proof. exact reads_query. Qed.
Print Assumptions C39_query.
Example C39_built_met :
  parse_brew_message (build_subscriber_affiliate (mk_now 1700000000 999999999) 2260571 [91; 16777215]) =
    Ok (inl (BmSubscriber (mk_brew_subscriber 8 2260571 1700000000 999999999 [91; 16777215]))) /\
  parse_brew_message (build_group_tx 0x0123456789ABCDEF0123456789ABCDEF 2260571 91 3 0) =
    Ok (inl (BmCallControl (mk_brew_call 2 0x0123456789ABCDEF0123456789ABCDEF (BpGroupTx (mk_brew_group_tx 2260571 91 3 0 0))))) /\
  parse_brew_message (build_query_subscribers [7; 4294967295; 0]) =
    Ok (inl (BmService 1 [91; 55; 44; 52; 50; 57; 52; 57; 54; 55; 50; 57; 53; 44; 48; 93])).
Proof. vm_compute. auto. Qed.

(** C39 is false of the groups given to the registration builder: it does not write them.  (Its only caller gives none.) *)
Theorem C39_register_refuted :
  parse_brew_message (build_subscriber_register (mk_now 0 0) 1 [5]) = Ok (inl (BmSubscriber (mk_brew_subscriber 1 1 0 0 []))).
Proof. vm_compute. reflexivity. Qed.
Print Assumptions C39_register_refuted.
