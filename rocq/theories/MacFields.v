(** Addresses, slot grants and channel allocation elements carried in the MAC PDUs.
    Enumerations whose [try_from]/[into_raw] tables are the identity on the whole raw range are
    represented by the raw number; the range accepted by [try_from] is modelled. *)
From Verif Require Import Base BitsLib BitBuffer Codec TypedFields.
Open Scope N_scope.
Open Scope codec_scope.

(** crates/tetra-core/src/address.rs:3-15 *)
Inductive ssi_type := SsiUnknown | SsiSsi | SsiIssi | SsiGssi | SsiUssi | SsiSmi | SsiEventLabel.
Definition ssi_type_eqb (a b : ssi_type) : bool :=
  match a, b with
  | SsiUnknown, SsiUnknown | SsiSsi, SsiSsi | SsiIssi, SsiIssi | SsiGssi, SsiGssi
  | SsiUssi, SsiUssi | SsiSmi, SsiSmi | SsiEventLabel, SsiEventLabel => true
  | _, _ => false
  end.
(** crates/tetra-core/src/address.rs: [TetraAddress { ssi, encrypted, ssi_type }] *)
Record tetra_addr := mk_addr { ad_ssi : N; ad_enc : bool; ad_type : ssi_type }.

(** crates/tetra-pdus/src/umac/enums/basic_slotgrant_granting_delay.rs:5-11 *)
Inductive grant_delay := GdNext | GdDelay (n : N) | GdFrame18 | GdWait.
(** basic_slotgrant_granting_delay.rs:15-23 *)
Definition gd_try_from (x : N) : option grant_delay :=
  if x =? 0 then Some GdNext
  else if (1 <=? x) && (x <=? 13) then Some (GdDelay x)
  else if x =? 14 then Some GdFrame18
  else if x =? 15 then Some GdWait
  else None.
(** basic_slotgrant_granting_delay.rs:28-35 *)
Definition gd_into_raw (d : grant_delay) : N :=
  match d with GdNext => 0 | GdDelay n => n | GdFrame18 => 14 | GdWait => 15 end.

(** crates/tetra-pdus/src/umac/enums/basic_slotgrant_cap_alloc.rs:26-46 (raw values 0..15, identity) *)
Definition cap_try_from (x : N) : option N := if x <=? 15 then Some x else None.
(** basic_slotgrant_cap_alloc.rs:74-94 *)
Definition cap_from_req_slotcount (req : N) : res N :=
  if req <=? 6 then Ok req
  else if req <=? 8 then Ok 7
  else if req <=? 10 then Ok 8
  else if req <=? 13 then Ok 9
  else if req <=? 17 then Ok 10
  else if req <=? 24 then Ok 11
  else if req <=? 34 then Ok 12
  else if req <=? 51 then Ok 13
  else if req <=? 68 then Ok 14
  else if req =? 99 then Ok 15
  else Panic.
(** basic_slotgrant_cap_alloc.rs:98-123 ([unimplemented!()] for the two subslot values) *)
Definition cap_to_req_slotcount (c : N) : res N :=
  if c =? 0 then Panic
  else if c <=? 6 then Ok c
  else nth (N.to_nat (c - 7)) [Ok 8; Ok 10; Ok 13; Ok 17; Ok 24; Ok 34; Ok 51; Ok 68] Panic.

(** crates/tetra-pdus/src/umac/enums/reservation_requirement.rs:36-56 (raw values 0..15, identity) *)
Definition resreq_try_from (x : N) : option N := if x <=? 15 then Some x else None.
(** reservation_requirement.rs:83-102 *)
Definition resreq_from_req_slotcount (req : N) : N :=
  if req <=? 6 then req
  else if req <=? 8 then 7
  else if req <=? 10 then 8
  else if req <=? 13 then 9
  else if req <=? 17 then 10
  else if req <=? 24 then 11
  else if req <=? 34 then 12
  else if req <=? 51 then 13
  else if req <=? 68 then 14
  else 15.
(** reservation_requirement.rs:106-131 ([unimplemented!()] for Req1Subslot and ReqOver68) *)
Definition resreq_to_req_slotcount (c : N) : res N :=
  if c =? 0 then Panic
  else if c <=? 6 then Ok c
  else nth (N.to_nat (c - 7)) [Ok 8; Ok 10; Ok 13; Ok 17; Ok 24; Ok 34; Ok 51; Ok 68] Panic.

(** crates/tetra-pdus/src/umac/fields/basic_slotgrant.rs:9-14 *)
Record slotgrant := mk_sg { sg_cap : N; sg_delay : grant_delay }.
(** basic_slotgrant.rs:17-34 *)
Definition sg_read : reader slotgrant :=
  c <~ rfield 4 ;;
  c' <~ rlift (ok_or (cap_try_from c) EInvalidValue) ;;
  d <~ rfield 4 ;;
  d' <~ rlift (ok_or (gd_try_from d) EInvalidValue) ;;
  rret (mk_sg c' d').
(** basic_slotgrant.rs:36-39 *)
Definition sg_write (s : slotgrant) : wr := wfield (sg_cap s) 4 >> wfield (gd_into_raw (sg_delay s)) 4 >> wret.

(** crates/tetra-pdus/src/umac/fields/channel_allocation.rs:9-70; [alloc_type] and [ul_dl_assigned]
    are raw values (crates/tetra-saps/src/lcmc/enums/{alloc_type,ul_dl_assignment}.rs, identity on 0..3,
    0 = Augmented); [ext : Option<Todo>] *)
Record chan_alloc := mk_ca {
  ca_type : N; ca_ts : bool * bool * bool * bool; ca_uldl : N; ca_clch : bool; ca_cell_change : bool;
  ca_carrier : N; ca_ext : option N; ca_mon : N; ca_f18_mon : option N }.
(** alloc_type.rs:13-24, ul_dl_assignment.rs:12-23 *)
Definition try_from_2bit (x : N) : option N := if x <=? 3 then Some x else None.
(** channel_allocation.rs:73-134 *)
Definition ca_read : reader chan_alloc :=
  v <~ rfield 2 ;;
  ty <~ rlift (unwrap (try_from_2bit v)) ;;
  bm <~ rfield 4 ;;
  v2 <~ rfield 2 ;;
  ud <~ rlift (unwrap (try_from_2bit v2)) ;;
  clch <~ rflag ;;
  cc <~ rflag ;;
  car <~ rfield 12 ;;
  e <~ rflag ;;
  rassert (negb e) ;~
  mon <~ rfield 2 ;;
  f18 <~ ropt (mon =? 0) (rfield 2) ;;
  rassert (negb (ud =? 0)) ;~
  rret (mk_ca ty (negb (N.land bm 8 =? 0), negb (N.land bm 4 =? 0), negb (N.land bm 2 =? 0), negb (N.land bm 1 =? 0))
          ud clch cc car None mon f18).
(** channel_allocation.rs:136-196 *)
Definition ca_write (c : chan_alloc) : wr :=
  let '(t1, t2, t3, t4) := ca_ts c in
  wfield (ca_type c) 2 >>
  wflag t1 >> wflag t2 >> wflag t3 >> wflag t4 >>
  wfield (ca_uldl c) 2 >> wflag (ca_clch c) >> wflag (ca_cell_change c) >> wfield (ca_carrier c) 12 >>
  match ca_ext c with Some _ => wfield 1 1 >> wpanic | None => wfield 0 1 end >>
  wfield (ca_mon c) 2 >>
  (if ca_mon c =? 0 then match ca_f18_mon c with Some v => wfield v 2 | None => wpanic end else wret) >>
  wassert (negb (ca_uldl c =? 0)) >>
  wret.
(** channel_allocation.rs:198-216 *)
Definition ca_compute_len (c : chan_alloc) : res nat :=
  if is_some (ca_ext c) then Panic
  else if ca_uldl c =? 0 then Panic
  else Ok (23 + 2 + if (ca_mon c =? 0)%N then 2 else 0)%nat.

(** [if let Some(v) = x { write_bits(1,1); w v } else { write_bits(0,1) }], the pattern used for
    optional elements of MAC PDUs, e.g. mac_resource.rs:263-268 *)
Definition wopt_flag {A} (x : option A) (w : A -> wr) : wr :=
  match x with Some v => wfield 1 1 >> w v | None => wfield 0 1 end.
(** [let f = read_field(1)?; if f == 1 { Some(r?) }], e.g. mac_resource.rs:164-167 *)
Definition ropt_flag {A} (r : reader A) : reader (option A) := f <~ rflag ;; ropt f r.
