(** What a mobile station is to make of the slots it decodes.  The receiver is that of DlSchedSpec ([hear]). *)
From Coq Require Import Arith.
From Verif Require Import Base BitsLib BitBuffer BitBufferProofs Codec MacFields MacPdus MacBroadcast FragSpec TdmaTime TdmaTimeProofs UlSched ErrorControl DlSched DlSchedSpec HeardSpec UmacBs UmacMs.
Open Scope nat_scope.

(** No PDU of the slot says a length that ends inside its own header. *)
Fixpoint headers_whole (fuel : nat) (l : list bool) : bool :=
  match fuel with
  | O => true
  | S n =>
      if length l <? 16 then true
      else match l with
      | false :: false :: _ =>
          match parse mr_read l with
          | Some (p, h) => if mr_is_null p || (mr_len p =? 63)%N then true
                           else (h <=? N.to_nat (8 * mr_len p)) && headers_whole n (skipn (N.to_nat (8 * mr_len p)) l)
          | None => true
          end
      | false :: true :: true :: _ =>
          match parse mend_read l with
          | Some (p, h) => (h <=? N.to_nat (8 * me_len p)) && headers_whole n (skipn (N.to_nat (8 * me_len p)) l)
          | None => true
          end
      | _ => true
      end
  end.
Definition uncut (l : list bool) : Prop := headers_whole (length l) l = true.

(** A message a mobile station can take: it is addressed to someone, is not encrypted, and has at most 4096 bits. *)
Definition takeable (m : mac_resource * list bool) : Prop :=
  mr_addr (fst m) <> None /\ mr_encmode (fst m) = 0%N /\ length (snd m) <= Pos.to_nat 4096.

(** What a mobile station is given: the network addresses, and blocks as decoded by the lower MAC, read from their start.
    Signalling is in the 268 bits of a full slot or the 124 of half a slot; each can hold the system information instead;
    blocks of the access assignment channel are read (on frame 18 they are not of the fourth kind, which stops the
    program) and those of the synchronisation channel too. *)
Definition says_broadcast (l : list bool) : bool := match l with true :: _ => true | _ => false end.
Definition sysinfo_fine (l : list bool) : Prop := firstn 4 l = [true; false; false; false] /\ parse si_read l <> None.
Definition event_fine (e : ms_event) : Prop :=
  match e with
  | MeConfigure _ _ => True
  | MeBlock i b => wf b /\ bpos b = bstart b /\ vtime (mi_time i) /\
      match mi_chan i, mi_blk i with
      | SchF, BothBlocks => length (window b) = 268 /\ (says_broadcast (window b) = true -> sysinfo_fine (window b))
      | SchHd, (Block1 | Block2) => length (window b) = 124 /\ (says_broadcast (window b) = true -> sysinfo_fine (window b))
      | Bnch, (Block1 | Block2) => sysinfo_fine (window b)
      | Aach, _ => tm_f (mi_time i) = 18%Z -> firstn 2 (window b) <> [true; true]
      | Bsch, _ => True
      | _, _ => False
      end
  end.
Definition on_ts (k : nat) (t : tdma_time) : bool := ts_of t =? k.
(** the blocks of signalling on timeslot [k] *)
Definition signalling (k : nat) (e : ms_event) : list (list bool) :=
  match e with
  | MeBlock i b => match mi_chan i with SchF | SchHd => if on_ts k (mi_time i) && negb (says_broadcast (window b)) then [window b] else [] | _ => [] end
  | MeConfigure _ _ => []
  end.
Definition slots_on (k : nat) (evs : list ms_event) : list (list bool) := flat_map (signalling k) evs.
(** What is given to the link layer for messages received: each message, whole, with its address, in order; a message
    without bits may be given too or not. *)
Definition gives (o : ms_out) (m : mac_resource * list bool) : Prop :=
  exists t sdu a scr, o = MoSdu t sdu a scr 0 /\ wf sdu /\ remaining sdu = snd m /\ mr_addr (fst m) = Some a.
Inductive handed : list ms_out -> list (mac_resource * list bool) -> Prop :=
| handed_none : handed [] []
| handed_one o out m l : gives o m -> handed out l -> handed (o :: out) (m :: l)
| handed_empty out h l : handed out l -> handed out ((h, []) :: l).
(** What the link layer was given at times of timeslot [k] *)
Definition sdus_on (k : nat) (out : list ms_out) : list ms_out := filter (fun o => match o with MoSdu t _ _ _ _ => on_ts k t | _ => false end) out.

(** * The access assignment channel *)
(** What the 14 bits of an access assignment say, outside frame 18: the first kind of header is that of a control channel;
    otherwise the downlink usage marker follows, and those from 4 on are traffic.  In the fourth kind the uplink usage
    marker must not be 1, 2 or 3. *)
Definition marks_traffic (l : list bool) : bool := negb (bits_val (firstn 2 l) =? 0)%N && (4 <=? bits_val (firstn 6 (skipn 2 l)))%N.
Definition assignment_known (l : list bool) : bool :=
  negb (bits_val (firstn 2 l) =? 3)%N || (bits_val (firstn 6 (skipn 8 l)) =? 0)%N || (4 <=? bits_val (firstn 6 (skipn 8 l)))%N.
(** A block as the lower MAC hands it up. *)
Definition decoded (t : tdma_time) (c : lchan) (l : list bool) : ms_event :=
  MeBlock (mk_msi t c (match c with SchF => BothBlocks | _ => Block1 end) 3) (match bb_from_bitstr l with Ok b => b | _ => bb_new 0 end).
Definition full_or_half (l : list bool) : lchan := if length l =? 124 then SchHd else SchF.
