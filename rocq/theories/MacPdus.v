(** The MAC PDUs exchanged with mobiles (crates/tetra-pdus/src/umac/pdus). *)
From Verif Require Import Base BitsLib BitBuffer Codec TypedFields MacFields.
Open Scope N_scope.
Open Scope codec_scope.

(** mac_resource.rs:13-53 *)
Record mac_resource := mk_mres {
  mr_fill : bool; mr_pog : N; mr_encmode : N; mr_raf : bool; mr_len : N;
  mr_addr : option tetra_addr; mr_el : option N; mr_um : option N;
  mr_pc : option N; mr_sg : option slotgrant; mr_ca : option chan_alloc }.
(** mac_resource.rs:56-70 *)
Definition mr_null_pdu : mac_resource := mk_mres false 0 0 false 2 None None None None None None.
(** crates/tetra-pdus/src/umac/enums/mac_resource_addr_type.rs: 0 Null, 1 Ssi, 2 EventLabel, 3 Ussi,
    4 Smi, 5 SsiAndEventLabel, 6 SsiAndUsageMarker, 7 SmiAndEventLabel; raw values.
    mac_resource.rs:99-157 *)
Definition mr_read_addr (enc : bool) (t : N) : reader (option tetra_addr * option N * option N) :=
  let ad ty := (s <~ rfield 24 ;; rret (mk_addr s enc ty)) in
  if t =? 1 then a <~ ad SsiSsi ;; rret (Some a, None, None)
  else if t =? 2 then e <~ rfield 10 ;; rret (None, Some e, None)
  else if t =? 3 then a <~ ad SsiUssi ;; rret (Some a, None, None)
  else if t =? 4 then a <~ ad SsiSmi ;; rret (Some a, None, None)
  else if t =? 5 then a <~ ad SsiSsi ;; e <~ rfield 10 ;; rret (Some a, Some e, None)
  else if t =? 6 then a <~ ad SsiSsi ;; u <~ rfield 6 ;; rret (Some a, None, Some u)
  else if t =? 7 then a <~ ad SsiSmi ;; e <~ rfield 10 ;; rret (Some a, Some e, None)
  else rpanic.
(** mac_resource.rs:72-181 *)
Definition mr_read : reader mac_resource :=
  ty <~ rfield 2 ;;
  rassert (ty =? 0) ;~
  fill <~ rflag ;;
  pog <~ rfield 1 ;;
  enc <~ rfield 2 ;;
  raf <~ rflag ;;
  len <~ rfield 6 ;;
  at_ <~ rfield 3 ;;
  if at_ =? 0 then rret (mk_mres false 0 0 false len None None None None None None)
  else
    aeu <~ mr_read_addr (negb (enc =? 0)) at_ ;;
    pc <~ ropt_flag (rfield 4) ;;
    sg <~ ropt_flag sg_read ;;
    ca <~ ropt_flag ca_read ;;
    rret (mk_mres fill pog enc raf len (fst (fst aeu)) (snd (fst aeu)) (snd aeu) pc sg ca).
(** mac_resource.rs:285-287 *)
Definition mr_is_null (p : mac_resource) : bool :=
  is_none (mr_addr p) && is_none (mr_el p) && is_none (mr_um p).
(** mac_resource.rs:194-233: choice of the address type; [None] is a panic.  The four asserts on a
    null PDU (196-199) are here too. *)
Definition mr_addr_type (p : mac_resource) : option N :=
  if mr_is_null p then
    if negb (mr_fill p) && (mr_pog p =? 0) && (mr_encmode p =? 0) && negb (mr_raf p) then Some 0 else None
  else match mr_addr p with
  | Some a =>
      match ad_type a with
      | SsiSsi | SsiGssi | SsiIssi =>
          if is_none (mr_el p) && is_none (mr_um p) then Some 1
          else if is_some (mr_el p) && is_none (mr_um p) then Some 5
          else if is_some (mr_um p) && is_none (mr_el p) then Some 6
          else None
      | SsiUssi => if is_none (mr_el p) && is_none (mr_um p) then Some 3 else None
      | SsiSmi => if is_none (mr_um p) then if is_some (mr_el p) then Some 7 else Some 4 else None
      | _ => None
      end
  | None => if is_none (mr_um p) && is_some (mr_el p) then Some 2 else None
  end.
(** [self.addr.unwrap()], [self.event_label.unwrap()] .. as in mac_resource.rs:240-254 *)
Definition w_unwrap {A} (x : option A) (w : A -> wr) : wr := match x with Some v => w v | None => wpanic end.
(** mac_resource.rs:237-256 *)
Definition mr_write_addr (p : mac_resource) (t : N) : wr :=
  let wa := w_unwrap (mr_addr p) (fun a => wassert (Bool.eqb (ad_enc a) (negb (mr_encmode p =? 0))) >> wfield (ad_ssi a) 24) in
  if t =? 0 then wret
  else if (t =? 1) || (t =? 3) || (t =? 4) then wa
  else if t =? 2 then w_unwrap (mr_el p) (fun e => wfield e 10)
  else if (t =? 5) || (t =? 7) then wa >> w_unwrap (mr_el p) (fun e => wfield e 10)
  else wa >> w_unwrap (mr_um p) (fun u => wfield u 6).
(** mac_resource.rs:183-283 *)
Definition mr_write (p : mac_resource) : wr :=
  wassert (0 <? mr_len p) >>
  wfield 0 2 >> wflag (mr_fill p) >> wfield (mr_pog p) 1 >> wfield (mr_encmode p) 2 >> wflag (mr_raf p) >> wfield (mr_len p) 6 >>
  match mr_addr_type p with
  | None => wpanic
  | Some t =>
      wfield t 3 >> mr_write_addr p t >>
      if t =? 0 then wret
      else wopt_flag (mr_pc p) (fun v => wfield v 4) >> wopt_flag (mr_sg p) sg_write >> wopt_flag (mr_ca p) ca_write >> wret
  end.
(** mac_resource.rs:289-319 *)
Definition mr_compute_header_len (p : mac_resource) : res nat :=
  if mr_is_null p then Ok 16%nat
  else
    ca <- match mr_ca p with Some c => ca_compute_len c | None => Ok 0%nat end ;;
    Ok (16 + (if is_some (mr_el p) then 10 else 0) + (if is_some (mr_um p) then 6 else 0) + (if is_some (mr_addr p) then 24 else 0)
        + 1 + (if is_some (mr_pc p) then 4 else 0) + 1 + (if is_some (mr_sg p) then 8 else 0) + 1 + ca)%nat.
(** mac_resource.rs:323-332 ([as u8] truncates) *)
Definition mr_update_len_and_fill_ind (p : mac_resource) (sdu_len : nat) : res (nat * mac_resource) :=
  hdr <- mr_compute_header_len p ;;
  let total := (hdr + sdu_len)%nat in
  let nfill := ((8 - total mod 8) mod 8)%nat in
  Ok (nfill, mk_mres (negb (nfill =? 0)%nat) (mr_pog p) (mr_encmode p) (mr_raf p) (to_u8 (N.of_nat ((total + 7) / 8)))
               (mr_addr p) (mr_el p) (mr_um p) (mr_pc p) (mr_sg p) (mr_ca p)).

(** mac_frag_dl.rs:8-33 and mac_frag_ul.rs:8-33 (identical code); the value is the fill bit flag *)
Definition mfrag_read : reader bool :=
  t <~ rfield 2 ;; rassert (t =? 1) ;~ s <~ rfield 1 ;; rassert (s =? 0) ;~ rflag.
Definition mfrag_write (fill : bool) : wr := wfield 1 2 >> wfield 0 1 >> wflag fill >> wret.

(** mac_end_dl.rs:11-26 *)
Record mac_end_dl := mk_mend { me_fill : bool; me_pog : N; me_len : N; me_sg : option slotgrant; me_ca : option chan_alloc }.
(** mac_end_dl.rs:29-58 *)
Definition mend_read : reader mac_end_dl :=
  t <~ rfield 2 ;; rassert (t =? 1) ;~ s <~ rfield 1 ;; rassert (s =? 1) ;~
  fill <~ rflag ;; pog <~ rfield 1 ;; len <~ rfield 6 ;;
  sg <~ ropt_flag sg_read ;;
  ca <~ ropt_flag ca_read ;;
  rret (mk_mend fill pog len sg ca).
(** mac_end_dl.rs:65-88 *)
Definition mend_write (p : mac_end_dl) : wr :=
  wfield 1 2 >> wfield 1 1 >> wflag (me_fill p) >> wfield (me_pog p) 1 >> wfield (me_len p) 6 >>
  wopt_flag (me_sg p) sg_write >> wopt_flag (me_ca p) ca_write >> wret.
(** mac_end_dl.rs:60-63 *)
Definition mend_compute_hdr_len (has_slotgrant has_chanalloc : bool) : res nat :=
  assert (negb has_chanalloc) ;;; Ok (2 + 1 + 1 + 1 + 6 + 1 + (if has_slotgrant then 6 else 0) + 1)%nat.

(** mac_end_ul.rs:10-18 *)
Record mac_end_ul := mk_meul { eu_fill : bool; eu_len : option N; eu_req : option N }.
(** mac_end_ul.rs:21-54.  Note the second bound, [0x110000] (not [0b110000]). *)
Definition meul_read : reader mac_end_ul :=
  t <~ rfield 2 ;; rassert (t =? 1) ;~ s <~ rfield 1 ;; rassert (s =? 1) ;~
  fill <~ rflag ;; v <~ rfield 6 ;;
  if v =? 0 then rerr EInvalidValue
  else if v <? 47 then rret (mk_meul fill (Some v) None)
  else if v <? 1114112 then rerr EInvalidValue
  else q <~ rlift (ok_or (resreq_try_from (N.land v 15)) EInvalidValue) ;; rret (mk_meul fill None (Some q)).
(** mac_end_ul.rs:56-77 *)
Definition meul_write (p : mac_end_ul) : wr :=
  wfield 1 2 >> wfield 1 1 >> wflag (eu_fill p) >>
  wguard (xorb (is_some (eu_len p)) (is_some (eu_req p))) EInvalidValue >>
  match eu_len p, eu_req p with
  | Some l, _ => wguard (0 <? l) EInvalidValue >> wguard (l <? 46) EInvalidValue >> wfield l 6
  | None, Some q => wfield 3 2 >> wfield q 4
  | None, None => wret
  end >> wret.

(** mac_end_hu.rs:10-19 *)
Record mac_end_hu := mk_mehu { eh_fill : bool; eh_len : option N; eh_req : option N }.
(** mac_end_hu.rs:22-46 *)
Definition mehu_read : reader mac_end_hu :=
  t <~ rfield 1 ;; rassert (t =? 1) ;~
  fill <~ rflag ;; f <~ rfield 1 ;;
  if f =? 0 then l <~ rfield 4 ;; rret (mk_mehu fill (Some l) None)
  else v <~ rfield 4 ;; q <~ rlift (ok_or (resreq_try_from v) EInvalidValue) ;; rret (mk_mehu fill None (Some q)).
(** mac_end_hu.rs:48-63 *)
Definition mehu_write (p : mac_end_hu) : wr :=
  wassert (is_some (eh_len p) || is_some (eh_req p)) >>
  wassert (negb (is_some (eh_len p) && is_some (eh_req p))) >>
  wfield 1 1 >> wflag (eh_fill p) >>
  match eh_len p with
  | Some v => wfield 0 1 >> wfield v 4
  | None => wfield 1 1 >> w_unwrap (eh_req p) (fun q => wfield q 4)
  end >> wret.

(** mac_access.rs:9-32 and mac_data.rs:10-28 (same fields) *)
Record mac_ul := mk_mul {
  mu_fill : bool; mu_enc : bool; mu_addr : option tetra_addr; mu_el : option N;
  mu_len : option N; mu_frag : option bool; mu_req : option N }.
(** mac_access.rs:42-75, mac_data.rs:36-72 *)
Definition mu_read_addr (enc : bool) : reader (option tetra_addr * option N) :=
  t <~ rfield 2 ;;
  if t =? 0 then s <~ rfield 24 ;; rret (Some (mk_addr s enc SsiSsi), None)
  else if t =? 1 then e <~ rfield 10 ;; rret (None, Some e)
  else if t =? 2 then s <~ rfield 24 ;; rret (Some (mk_addr s enc SsiUssi), None)
  else if t =? 3 then s <~ rfield 24 ;; rret (Some (mk_addr s enc SsiSmi), None)
  else rpanic.
(** mac_access.rs:35-102 *)
Definition macc_read : reader mac_ul :=
  t <~ rfield 1 ;; rassert (t =? 0) ;~
  fill <~ rflag ;; enc <~ rflag ;;
  ae <~ mu_read_addr enc ;;
  o <~ rflag ;;
  if o then
    f <~ rfield 1 ;;
    if f =? 0 then l <~ rfield 5 ;; rret (mk_mul fill enc (fst ae) (snd ae) (Some l) None None)
    else
      fr <~ rflag ;; v <~ rfield 4 ;; q <~ rlift (unwrap (resreq_try_from v)) ;;
      rret (mk_mul fill enc (fst ae) (snd ae) None (Some fr) (Some q))
  else rret (mk_mul fill enc (fst ae) (snd ae) None None None).
(** mac_access.rs:104-150 *)
Definition macc_write (p : mac_ul) : wr :=
  wfield 0 1 >> wflag (mu_fill p) >> wflag (mu_enc p) >>
  match mu_addr p with
  | Some a =>
      wassert (Bool.eqb (ad_enc a) (mu_enc p)) >>
      match ad_type a with
      | SsiSsi => wfield 0 2 >> wfield (ad_ssi a) 24
      | SsiUssi => wfield 2 2 >> wfield (ad_ssi a) 24
      | SsiSmi => wfield 3 2 >> wfield (ad_ssi a) 24
      | _ => wpanic
      end
  | None => match mu_el p with Some e => wfield 1 2 >> wfield e 10 | None => wpanic end
  end >>
  (if is_some (mu_len p) || is_some (mu_frag p) || is_some (mu_req p) then
     wassert (negb (is_some (mu_len p) && is_some (mu_frag p) && is_some (mu_req p))) >>
     wfield 1 1 >>
     match mu_len p with
     | Some l => wfield 0 1 >> wfield l 5
     | None => wfield 1 1 >> w_unwrap (mu_frag p) (fun f => wflag f) >> w_unwrap (mu_req p) (fun q => wfield q 4)
     end
   else wfield 0 1) >> wret.
(** mac_access.rs:152-158 *)
Definition macc_is_null (p : mac_ul) : bool := match mu_len p with Some l => l =? 0 | None => false end.
Definition macc_is_frag_start (p : mac_ul) : bool := match mu_frag p with Some f => f | None => false end.

(** [buf.read_bits(1);] with the result ignored, mac_data.rs:81 *)
Definition r_ignore_bit : reader unit := fun b => ' (_, b') <- read_bits_opt b 1 ;; Ok (tt, b').
(** mac_data.rs:31-98 *)
Definition mdata_read : reader mac_ul :=
  t <~ rfield 2 ;; rassert (t =? 0) ;~
  fill <~ rflag ;; enc <~ rflag ;;
  ae <~ mu_read_addr enc ;;
  f <~ rfield 1 ;;
  if f =? 0 then l <~ rfield 6 ;; rret (mk_mul fill enc (fst ae) (snd ae) (Some l) None None)
  else
    fr <~ rflag ;; v <~ rfield 4 ;; q <~ rlift (unwrap (resreq_try_from v)) ;;
    r_ignore_bit ;~
    rret (mk_mul fill enc (fst ae) (snd ae) None (Some fr) (Some q)).
(** mac_data.rs:100-150 *)
Definition mdata_write (p : mac_ul) : wr :=
  wfield 0 2 >> wflag (mu_fill p) >> wflag (mu_enc p) >>
  wassert (xorb (is_some (mu_addr p)) (is_some (mu_el p))) >>
  match mu_addr p with
  | Some a =>
      wassert (Bool.eqb (ad_enc a) (mu_enc p)) >>
      match ad_type a with
      | SsiSsi | SsiIssi | SsiGssi => wfield 0 2 >> wfield (ad_ssi a) 24
      | SsiUssi => wfield 2 2 >> wfield (ad_ssi a) 24
      | SsiSmi => wfield 3 2 >> wfield (ad_ssi a) 24
      | _ => wpanic
      end
  | None => w_unwrap (mu_el p) (fun e => wfield 1 2 >> wfield e 10)
  end >>
  match mu_len p with
  | Some l => wfield 0 1 >> wfield l 6
  | None =>
      wassert (is_some (mu_frag p) && is_some (mu_req p)) >>
      wfield 1 1 >> w_unwrap (mu_frag p) (fun f => wflag f) >> w_unwrap (mu_req p) (fun q => wfield q 4) >> wfield 0 1
  end >> wret.

(** mac_u_blck.rs:8-50 *)
Record mac_u_blck := mk_ublck { ub_fill : bool; ub_enc : bool; ub_el : N; ub_req : N }.
Definition ublck_read : reader mac_u_blck :=
  t <~ rfield 2 ;; rassert (t =? 3) ;~ s <~ rfield 1 ;; rassert (s =? 0) ;~
  fill <~ rflag ;; enc <~ rflag ;; el <~ rfield 10 ;; q <~ rfield 4 ;;
  rret (mk_ublck fill enc el q).
Definition ublck_write (p : mac_u_blck) : wr :=
  wfield 3 2 >> wfield 0 1 >> wflag (ub_fill p) >> wflag (ub_enc p) >> wfield (ub_el p) 10 >> wfield (ub_req p) 4 >> wret.

(** mac_u_signal.rs:8-28; the value is [second_half_stolen] *)
Definition usignal_read : reader bool := t <~ rfield 2 ;; rassert (t =? 3) ;~ rflag.
Definition usignal_write (s : bool) : wr := wfield 3 2 >> wflag s >> wret.

(** mac_d_blck.rs:10-71 *)
Record mac_d_blck := mk_dblck { db_fill : bool; db_encmode : N; db_el : N; db_nap : bool; db_sg : option slotgrant }.
Definition dblck_read : reader mac_d_blck :=
  t <~ rfield 2 ;; rassert (t =? 3) ;~ s <~ rfield 1 ;; rassert (s =? 0) ;~
  fill <~ rflag ;; enc <~ rfield 2 ;; el <~ rfield 10 ;; nap <~ rflag ;;
  sg <~ ropt_flag sg_read ;;
  rret (mk_dblck fill enc el nap sg).
Definition dblck_write (p : mac_d_blck) : wr :=
  wfield 3 2 >> wfield 0 1 >> wflag (db_fill p) >> wfield (db_encmode p) 2 >> wfield (db_el p) 10 >> wflag (db_nap p) >>
  wopt_flag (db_sg p) sg_write >> wret.
