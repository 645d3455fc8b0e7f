(** Specification of how a received uplink block is taken apart, on plain bit lists (EN 300 392-2 clauses 21.4.2
    and 23.4.3): a block is the list of its bits; PDUs follow each other from the left. *)
From Verif Require Import Base BitBuffer BitBufferProofs Codec TypedFields MacFields MacPdus Layout MacSpec TdmaTime Defrag DefragSpec FragSpec UlSched DlSched UmacBs.
Open Scope N_scope.

(** What a PDU does, in order. *)
Inductive ul_act :=
| AStolen                                        (* the other half slot is stolen too *)
| AAck (a : tetra_addr)                          (* a random access, to be acknowledged *)
| AAsk (a : tetra_addr) (req : N)                (* a reservation request *)
| ASdu (a : tetra_addr) (sdu : list bool)        (* a whole SDU *)
| AFirst (a : tetra_addr) (sdu : list bool)      (* the first, a middle and the last part of an SDU *)
| AMore (sdu : list bool)
| ALast (req : option N) (sdu : list bool).
(** A PDU: what it does and after how many bits the next PDU begins; [None] if what follows it is not looked at.
    [Crash]: receiving this PDU stops the program. *)
Inductive ul_pdu := Crash | Acts (l : list ul_act) (next : option nat).

(** The SDU of a PDU of [ext] bits with a header of [h] bits: fill bits are a one and the zeroes behind it.  If the
    header announces fill bits and there is no one, there are none. *)
Definition unfill (fill : bool) (s : list bool) : list bool := if fill && existsb (fun x => x) s then strip s else s.
Definition sdu_of (fill : bool) (h ext : nat) (l : list bool) : list bool := unfill fill (skipn h (firstn ext l)).
Definition asks (a : tetra_addr) (req : option N) : list ul_act := match req with Some q => [AAsk a q] | None => [] end.
Definition sdu_act (a : tetra_addr) (d : list bool) : list ul_act := match d with [] => [] | _ => [ASdu a d] end.
Definition stolen_act (s : bool) : list ul_act := if s then [AStolen] else [].

(** MAC-DATA.  The length indication: 0 null PDU, 2..55 octets, 62 the whole block and the other half slot is stolen
    too, 63 the whole block and the first part of an SDU; without it, the whole block.  A PDU cannot be longer
    than the block or (that stops the program) shorter than its header. *)
Definition data_pdu (l : list bool) : ul_pdu :=
  match parse mdata_read l with
  | None => Acts [] None
  | Some (p, h) =>
      match mu_addr p with
      | None => Acts [] None
      | Some a =>
          let pdu (ext : nat) (first stolen : bool) :=
            if (ext <? h)%nat then Crash
            else if mu_enc p then Acts (stolen_act stolen) None
            else let d := sdu_of (mu_fill p) h ext l in
                 Acts (stolen_act stolen ++ asks a (mu_req p) ++ (if first then [AFirst a d] else sdu_act a d)) (Some ext) in
          match mu_len p with
          | Some k =>
              if k =? 0 then Acts [] None
              else if (2 <=? k) && (k <=? 55) then pdu (Nat.min (8 * N.to_nat k) (length l)) false false
              else if k =? 62 then pdu (length l) false true
              else if k =? 63 then pdu (length l) true false
              else Crash
          | None => pdu (length l) (match mu_frag p with Some f => f | None => false end) false
          end
      end
  end.
(** MAC-ACCESS, similarly; there is always an acknowledgement unless it is a null PDU. *)
Definition access_pdu (l : list bool) : ul_pdu :=
  match parse macc_read l with
  | None => Acts [] None
  | Some (p, h) =>
      match mu_addr p with
      | None => Acts [] None
      | Some a =>
          let pdu (ext : nat) (first : bool) :=
            if (ext <? h)%nat then Crash
            else if mu_enc p then Acts [AAck a] None
            else let d := sdu_of (mu_fill p) h ext l in
                 if first then Acts (AAck a :: asks a (mu_req p) ++ [AFirst a d]) (Some ext)
                 else Acts (AAck a :: asks a (mu_req p) ++ sdu_act a d) (match d with [] => None | _ => Some ext end) in
          match mu_len p with
          | Some k => if k =? 0 then Acts [] None else pdu (Nat.min (8 * N.to_nat k) (length l)) false
          | None => pdu (length l) (match mu_frag p with Some f => f | None => false end)
          end
      end
  end.
(** MAC-FRAG covers the block. *)
Definition frag_pdu (l : list bool) : ul_pdu :=
  match parse mfrag_read l with None => Acts [] None | Some (fill, h) => Acts [AMore (sdu_of fill h (length l) l)] None end.
(** MAC-END *)
Definition end_pdu (fill : bool) (h ext : nat) (req : option N) (l : list bool) : ul_pdu :=
  if (ext <? h)%nat then Crash else Acts [ALast req (sdu_of fill h ext l)] (Some ext).
Definition endul_pdu (l : list bool) : ul_pdu :=
  match parse meul_read l with
  | None => Acts [] None
  | Some (p, h) => end_pdu (eu_fill p) h (match eu_len p with Some k => Nat.min (8 * N.to_nat k) (length l) | None => length l end) (eu_req p) l
  end.
Definition endhu_pdu (l : list bool) : ul_pdu :=
  match parse mehu_read l with
  | None => Acts [] None
  | Some (p, h) =>
      match eh_len p with
      | Some k => if k =? 0 then Acts [] None else end_pdu (eh_fill p) h (Nat.min (8 * N.to_nat k) (length l)) (eh_req p) l
      | None => end_pdu (eh_fill p) h (length l) (eh_req p) l
      end
  end.
(** MAC-U-SIGNAL: the rest of the half slot, from no one in particular. *)
Definition signal_pdu (l : list bool) : ul_pdu :=
  match parse usignal_read l with
  | None => Acts [] None
  | Some (true, _) => Acts [] None
  | Some (false, h) => Acts (sdu_act (mk_addr 0 false SsiSsi) (skipn h l)) None
  end.
(** MAC-U-BLCK is not implemented. *)
Definition blck_pdu (l : list bool) : ul_pdu := match parse ublck_read l with None => Acts [] None | Some _ => Crash end.
(** Which PDU it is is told by its first bits and the channel. *)
Definition first_pdu (c : ul_chan) (l : list bool) : ul_pdu :=
  match c, l with
  | UcSchHu, false :: _ :: _ :: _ => access_pdu l
  | UcSchHu, true :: _ :: _ :: _ => endhu_pdu l
  | (UcSchF | UcStch), false :: false :: _ :: _ => data_pdu l
  | (UcSchF | UcStch), false :: true :: false :: _ => frag_pdu l
  | (UcSchF | UcStch), false :: true :: true :: _ => endul_pdu l
  | UcStch, true :: true :: _ :: _ => signal_pdu l
  | UcSchF, true :: true :: false :: _ => blck_pdu l
  | _, _ => Acts [] None
  end.

(** What an act does: [does i x u r], where [r] is the new state, what is sent and whether the rest of the block counts
    (a last part for which nothing has been collected makes the rest of the block be ignored), or a panic. *)
Definition does (i : tmv_ind) (x : ul_act) (u : umac) (r : res (umac * list um_out * bool)) : Prop :=
  let t := tv_time i in
  match x with
  | AStolen => r = Ok (u, [OutStolen], true)
  | AAck a => r = (s <- dl_enqueue_random_access_ack (ts_of t) a (um_sch u) ;; Ok (set_sch s u, [], true))
  | AAsk a q => r = (s <- rx_reservation t a (Some q) (um_sch u) ;; Ok (set_sch s u, [], true))
  | ASdu a d => exists b, wf b /\ bpos b = bstart b /\ window b = d /\ r = Ok (u, [OutSdu t b a (tv_scr i)], true)
  | AFirst a d => exists f, wf f /\ remaining f = d /\
      r = (' (df, _) <- df_step (um_defrag u) (DfStart t a false f) ;; Ok (set_defrag df u, [], true))
  | AMore d => exists f, wf f /\ remaining f = d /\
      r = (o <- ul_get_slot_owner t (tv_blk i) (ds_ul (um_sch u)) ;;
           match o with
           | None => Ok (u, [], true)
           | Some ssi =>
               aie <- get_aie_info ssi t (um_defrag u) ;;
               if (aie : bool) then Ok (u, [], true)
               else ' (df, _) <- df_step (um_defrag u) (DfNext t ssi f) ;; Ok (set_defrag df u, [], true)
           end)
  | ALast req d => exists f, wf f /\ remaining f = d /\
      r = (o <- ul_get_slot_owner t (tv_blk i) (ds_ul (um_sch u)) ;;
           match o with
           | None => Ok (u, [], false)
           | Some ssi =>
               aie <- get_aie_info ssi t (um_defrag u) ;;
               assert (negb aie) ;;;
               ' (df, got) <- df_step (um_defrag u) (DfEnd t ssi f) ;;
               let u := set_defrag df u in
               match got with
               | [Some b] =>
                   s <- rx_reservation t (df_addr b) req (um_sch u) ;;
                   Ok (set_sch s u, [OutSdu t (df_bits b) (df_addr b) (tv_scr i)], true)
               | _ => Ok (u, [], false)
               end
           end)
  end.
Inductive does_all (i : tmv_ind) : list ul_act -> umac -> res (umac * list um_out * bool) -> Prop :=
| da_nil u : does_all i [] u (Ok (u, [], true))
| da_panic x l u : does i x u Panic -> does_all i (x :: l) u Panic
| da_stop x l u u' o : does i x u (Ok (u', o, false)) -> does_all i (x :: l) u (Ok (u', o, false))
| da_next x l u u' o : does i x u (Ok (u', o, true)) -> forall r, does_all i l u' r ->
    does_all i (x :: l) u (' (v, o', c) <- r ;; Ok (v, o ++ o', c)).

(** The block: PDU after PDU from the left, as long as 16 bits or more are left; what comes behind is ignored. *)
Inductive heard (i : tmv_ind) : list bool -> umac -> res (umac * list um_out) -> Prop :=
| h_crash l u : first_pdu (tv_chan i) l = Crash -> heard i l u Panic
| h_panic l u acts n : first_pdu (tv_chan i) l = Acts acts n -> does_all i acts u Panic -> heard i l u Panic
| h_stop l u acts n u' o c : first_pdu (tv_chan i) l = Acts acts n -> does_all i acts u (Ok (u', o, c)) ->
    (c = false \/ n = None) -> heard i l u (Ok (u', o))
| h_last l u acts n u' o : first_pdu (tv_chan i) l = Acts acts (Some n) -> does_all i acts u (Ok (u', o, true)) ->
    (length (skipn n l) < 16)%nat -> heard i l u (Ok (u', o))
| h_next l u acts n u' o r : first_pdu (tv_chan i) l = Acts acts (Some n) -> does_all i acts u (Ok (u', o, true)) ->
    (16 <= length (skipn n l) < length l)%nat -> heard i (skipn n l) u' r ->
    heard i l u (' (v, o') <- r ;; Ok (v, o ++ o')).
(** Blocks come on the three uplink channels: a whole slot, or a half. *)
Definition on_channel (i : tmv_ind) : bool :=
  match tv_chan i, tv_blk i with UcSchF, BothBlocks | (UcStch | UcSchHu), (Block1 | Block2) => true | _, _ => false end.

(** What a radio puts into a block, after the layouts of clause 21.4.2 ([MacSpec]): [sent c pdu rest acts next] says
    that on channel [c] the bits [pdu], with [rest] behind them, are a PDU meant to have the effects [acts], and that the
    next PDU begins after [next] bits.  The SDU is followed by [k] fill bits.  A null PDU says that there is nothing more. *)
Inductive sent (c : ul_chan) : list bool -> list bool -> list ul_act -> option nat -> Prop :=
| s_data p a n sdu k rest : (c = UcSchF \/ c = UcStch) -> mdata_valid p = true -> mu_enc p = false -> mu_addr p = Some a -> mu_len p = Some n ->
    2 <= n <= 55 -> mu_fill p = (0 <? k)%nat -> (8 * N.to_nat n = length (enc (mdata_layout p)) + length sdu + k)%nat -> sdu <> [] ->
    sent c (enc (mdata_layout p) ++ sdu ++ pad k) rest [ASdu a sdu] (Some (8 * N.to_nat n)%nat)
| s_data_all p a q (first : bool) sdu k : (c = UcSchF \/ c = UcStch) -> mdata_valid p = true -> mu_enc p = false -> mu_addr p = Some a -> mu_len p = None ->
    mu_frag p = Some first -> mu_req p = Some q -> mu_fill p = (0 <? k)%nat -> sdu <> [] ->
    sent c (enc (mdata_layout p) ++ sdu ++ pad k) [] [AAsk a q; if first then AFirst a sdu else ASdu a sdu]
      (Some (length (enc (mdata_layout p) ++ sdu ++ pad k)))
| s_access p a n sdu k rest : c = UcSchHu -> macc_valid p = true -> mu_enc p = false -> mu_addr p = Some a -> mu_len p = Some n ->
    1 <= n -> mu_fill p = (0 <? k)%nat -> (8 * N.to_nat n = length (enc (macc_layout p)) + length sdu + k)%nat -> sdu <> [] ->
    sent c (enc (macc_layout p) ++ sdu ++ pad k) rest [AAck a; ASdu a sdu] (Some (8 * N.to_nat n)%nat)
| s_access_all p a q (first : bool) sdu k : c = UcSchHu -> macc_valid p = true -> mu_enc p = false -> mu_addr p = Some a -> mu_len p = None ->
    mu_frag p = Some first -> mu_req p = Some q -> mu_fill p = (0 <? k)%nat -> sdu <> [] ->
    sent c (enc (macc_layout p) ++ sdu ++ pad k) [] [AAck a; AAsk a q; if first then AFirst a sdu else ASdu a sdu]
      (Some (length (enc (macc_layout p) ++ sdu ++ pad k)))
| s_access_none p a sdu k : c = UcSchHu -> macc_valid p = true -> mu_enc p = false -> mu_addr p = Some a -> mu_len p = None ->
    mu_frag p = None -> mu_req p = None -> mu_fill p = (0 <? k)%nat -> sdu <> [] ->
    sent c (enc (macc_layout p) ++ sdu ++ pad k) [] [AAck a; ASdu a sdu] (Some (length (enc (macc_layout p) ++ sdu ++ pad k)))
| s_frag sdu k : (c = UcSchF \/ c = UcStch) -> sent c (enc (mfrag_layout (0 <? k)%nat) ++ sdu ++ pad k) [] [AMore sdu] None
| s_end p n sdu k rest : (c = UcSchF \/ c = UcStch) -> meul_valid p = true -> eu_len p = Some n -> eu_fill p = (0 <? k)%nat ->
    (8 * N.to_nat n = length (enc (meul_layout p)) + length sdu + k)%nat ->
    sent c (enc (meul_layout p) ++ sdu ++ pad k) rest [ALast None sdu] (Some (8 * N.to_nat n)%nat)
| s_end_hu p n sdu k rest : c = UcSchHu -> mehu_valid p = true -> eh_len p = Some n -> eh_fill p = (0 <? k)%nat ->
    (8 * N.to_nat n = length (enc (mehu_layout p)) + length sdu + k)%nat ->
    sent c (enc (mehu_layout p) ++ sdu ++ pad k) rest [ALast None sdu] (Some (8 * N.to_nat n)%nat)
| s_end_hu_req p q sdu k : c = UcSchHu -> mehu_valid p = true -> eh_req p = Some q -> eh_fill p = (0 <? k)%nat ->
    sent c (enc (mehu_layout p) ++ sdu ++ pad k) [] [ALast (Some q) sdu] (Some (length (enc (mehu_layout p) ++ sdu ++ pad k)))
| s_null p a rest : (c = UcSchF \/ c = UcStch) -> mdata_valid p = true -> mu_addr p = Some a -> mu_len p = Some 0 -> sent c (enc (mdata_layout p)) rest [] None
| s_access_null p a rest : c = UcSchHu -> macc_valid p = true -> mu_addr p = Some a -> mu_len p = Some 0 -> sent c (enc (macc_layout p)) rest [] None
| s_signal sdu : c = UcStch -> sdu <> [] -> sent c (enc (usignal_layout false) ++ sdu) [] [ASdu (mk_addr 0 false SsiSsi) sdu] None.

(** A block filled with PDUs from the left, and what all of them together are meant to do, in this order.  Fewer than 16
    bits behind the last PDU count for nothing. *)
Inductive block_sent (c : ul_chan) : list bool -> list ul_act -> Prop :=
| bs_none pdu rest acts : sent c pdu rest acts None -> block_sent c (pdu ++ rest) acts
| bs_last pdu rest acts n : sent c pdu rest acts (Some n) -> (length rest < 16)%nat -> block_sent c (pdu ++ rest) acts
| bs_next pdu rest acts n more : sent c pdu rest acts (Some n) -> (16 <= length rest)%nat -> block_sent c rest more -> block_sent c (pdu ++ rest) (acts ++ more).

(** The PDUs that stop the program. *)
Definition too_short (n h : N) : Prop := n <> 0 /\ 8 * n < h.
Definition hostile (c : ul_chan) (l : list bool) : Prop :=
  match c, l with
  | UcSchHu, false :: _ => exists p h, parse macc_read l = Some (p, h) /\ mu_addr p <> None /\
      (mu_req p = Some 15 \/ exists n, mu_len p = Some n /\ too_short n (N.of_nat h))
  | UcSchHu, true :: _ => exists p h, parse mehu_read l = Some (p, h) /\ eh_req p = Some 15
  | (UcSchF | UcStch), false :: false :: _ => exists p h, parse mdata_read l = Some (p, h) /\ mu_addr p <> None /\
      (mu_req p = Some 15 \/ exists n, mu_len p = Some n /\ (n = 1 \/ 56 <= n <= 61 \/ too_short n (N.of_nat h)))
  | (UcSchF | UcStch), false :: true :: true :: _ => exists p h n, parse meul_read l = Some (p, h) /\ eu_len p = Some n /\ n <= 1
  | UcSchF, true :: true :: false :: _ => parse ublck_read l <> None
  | _, _ => False
  end.
(** [begins c l l']: at [l'] in the block [l] a PDU begins. *)
Inductive begins (c : ul_chan) : list bool -> list bool -> Prop :=
| b_here l : begins c l l
| b_next l acts n l' : first_pdu c l = Acts acts (Some n) -> begins c (skipn n l) l' -> begins c l l'.
