(** Property theorems for C21, C22, C33, C40, C41, C42, C49, C51. *)
From Coq Require Import NArith ZArith String Permutation.
From Verif Require Import Base TdmaTime SsiRanges SsiRangesProofs BitBuffer BitBufferProofs
  JitterBuffer JitterSpec JitterProofs BrewRoute BrewRouteProofs NetworkTime NetworkTimeSpec NetworkTimeProofs
  EventLabels EventLabelProofs Router RouterSpec RouterProofs Registry RegistrySpec RegistryProofs
  UmacCircuits UmacCircuitsSpec UmacCircuitsProofs VoicePack VoicePackProofs.
Local Open Scope nat_scope.

(** C21: from the moment a circuit is opened on a timeslot until it is closed or opened again, the
    blocks taken on that timeslot are the first ones queued for it, in order; the rest is the backlog
    the next take starts from.  Whatever happens on other timeslots makes no difference. *)
Theorem C21_blocks_in_order : forall (C B : Type) (h1 : list (uc_op C B)) ts c h2 m1 m2 m3 log1 log2,
  1 <= ts <= 4 -> Forall uc_valid h1 -> Forall uc_valid h2 ->
  uc_run h1 ucm_new = Ok (log1, m1) -> uc_step (UcCreate DirDl ts c) m1 = Ok (None, m2) ->
  uc_run h2 m2 = Ok (log2, m3) ->
  forallb (fun o => negb (opens ts o || closes ts o)) h2 = true ->
  exists backlog, puts ts log2 = takes ts log2 ++ backlog /\
    (backlog = [] -> exists m4, uc_step (UcTake ts) m3 = Ok (None, m4)) /\
    (forall b rest, backlog = b :: rest -> exists m4, uc_step (UcTake ts) m3 = Ok (Some b, m4)).
Proof. exact @circuits_fifo. Qed.
Print Assumptions C21_blocks_in_order.

(** C21: after a circuit is closed, and before one is ever opened, nothing is taken on its timeslot. *)
Theorem C21_nothing_when_closed : forall (C B : Type) (h1 : list (uc_op C B)) ts h2 m1 m2 m3 log1 log2,
  1 <= ts <= 4 -> Forall uc_valid h1 -> Forall uc_valid h2 ->
  uc_run h1 ucm_new = Ok (log1, m1) ->
  (uc_step (UcClose DirDl ts) m1 = Ok (None, m2) \/ (h1 = [] /\ m2 = m1)) ->
  uc_run h2 m2 = Ok (log2, m3) -> forallb (fun o => negb (opens ts o)) h2 = true ->
  takes ts log2 = [] /\ exists m4, uc_step (UcTake ts) m3 = Ok (None, m4).
Proof. exact @circuits_closed. Qed.
Print Assumptions C21_nothing_when_closed.

Theorem C21_total : forall (C B : Type) (l : list (uc_op C B)), Forall uc_valid l ->
  exists log m, uc_run l ucm_new = Ok (log, m) /\ map fst log = l.
Proof. exact @circuits_total. Qed.
Print Assumptions C21_total.

Example C21_met :
  let h1 := [UcPut 2 10; UcCreate DirDl 2 "a"%string; UcPut 2 11; UcCreate DirDl 3 "b"%string] in
  let h2 := [UcPut 2 12; UcPut 3 13; UcTake 2; UcCreate DirUl 2 "c"%string; UcPut 2 14; UcClose DirDl 3; UcTake 3; UcTake 2; UcPut 2 15] in
  Forall uc_valid h1 /\ Forall uc_valid h2 /\
  exists log1 m1 m2 log2 m3, uc_run h1 ucm_new = Ok (log1, m1) /\ uc_step (UcCreate DirDl 2 "d"%string) m1 = Ok (None, m2) /\
    uc_run h2 m2 = Ok (log2, m3) /\ forallb (fun o => negb (opens 2 o || closes 2 o)) h2 = true /\
    puts 2 log2 = [12; 14; 15] /\ takes 2 log2 = [12; 14] /\ takes 3 log2 = [].
Proof.
  assert (Hd : forall d, d = DirDl \/ d = DirUl -> forall t, 1 <= t <= 4 -> (d = DirDl \/ d = DirUl) /\ 1 <= t <= 4) by auto.
  cbv zeta. split; [repeat (apply Forall_cons; [cbn; first [lia | apply Hd; [auto|lia]]|]); constructor|].
  split; [repeat (apply Forall_cons; [cbn; first [lia | apply Hd; [auto|lia]]|]); constructor|]. clear Hd.
  do 5 eexists. repeat (split; [vm_compute; reflexivity|]). vm_compute. reflexivity.
Qed.

(** C22: as long as the store does not stop (it stops exactly when asked to label an SSI that has a
    live label): labels fit the field, two of any 511 consecutive assignments never share a label, a
    label resolves to its latest holder, and each of the last 511 radios is found under its label and
    its label under its SSI.  Labels have no lifetime in the code. *)
Theorem C22_labels : forall (A : Type) (l : list (el_addr A)),
  match els_run els_new l with
  | Ok (xs, s) =>
      length xs = length l /\
      (forall i x, nth_error xs i = Some x -> (x < 511)%N) /\
      (forall i j x y, nth_error xs i = Some x -> nth_error xs j = Some y -> i < j < i + 511 -> x <> y) /\
      (forall x, els_addr_by_label s x = last_holder x (combine xs l)) /\
      (forall i x a, nth_error xs i = Some x -> nth_error l i = Some a -> length l <= i + 511 ->
         els_addr_by_label s x = Some a /\ els_label_by_ssi s (fst a) = Some x) /\
      (forall a, els_create a s = Panic <-> exists x, els_label_by_ssi s (fst a) = Some x)
  | Err _ => False
  | Panic => True
  end.
Proof. exact @labels_history. Qed.
Print Assumptions C22_labels.

(** After a full cycle the first radio's label has gone to another. *)
Example C22_cycle :
  let l := map (fun i => (N.of_nat i, 0)) (seq 100 512) in
  match els_run els_new l with
  | Ok (xs, s) => nth_error xs 0 = Some 1%N /\ nth_error xs 510 = Some 0%N /\ nth_error xs 511 = Some 1%N /\
      els_addr_by_label s 1 = Some (611%N, 0) /\ els_addr_by_label s 2 = Some (101%N, 0) /\ els_label_by_ssi s 100 = None
  | _ => False
  end.
Proof. vm_compute. intuition congruence. Qed.

(** C33 *)
Theorem C33_registry : forall l,
  (forall i, reg_is_registered i (reg_run l) = is_reg (rev l) i) /\
  (forall g, reg_has_members g (reg_run l) = true <-> exists i, is_reg (rev l) i = true /\ is_aff (rev l) i g = true).
Proof. exact registry_answers. Qed.
Print Assumptions C33_registry.

Example C33_history :
  let l := [Register 1; Affiliate 1 91; Register 2; Affiliate 2 91; Affiliate 2 92; Deaffiliate 1 91; Register 2; Deregister 1] in
  let at_ n g := reg_has_members g (reg_run (firstn n l)) in
  at_ 6 91%N = true /\ at_ 6 92%N = true /\ at_ 7 91%N = false /\ at_ 7 92%N = false /\
  reg_is_registered 2 (reg_run l) = true /\ reg_is_registered 1 (reg_run l) = false.
Proof. vm_compute. intuition congruence. Qed.

(** C40: at any time every frame that has arrived was either played, dropped or still waits; those
    played were played in order of arrival, those waiting are the latest arrivals, in order, and at
    most 24; the drop counter counts the dropped ones. *)
Theorem C40_account : forall (F : Type) lat (l : list (jcall F)), let '(os, b) := jb_run (jb_new lat) l in
  length (jb_frames b) <= 24 /\
  exists fates past, length fates = length (arrivals 0 l) /\
    fates = past ++ repeat Waiting (length (jb_frames b)) /\ ~ In Waiting past /\
    handed_out os = met Played fates (arrivals 0 l) /\
    jb_frames b = met Waiting fates (arrivals 0 l) /\
    jb_dropped b = N.of_nat (length (met Dropped fates (arrivals 0 l))).
Proof. exact @jitter_account. Qed.
Print Assumptions C40_account.

(** C40: an arrival drops a frame only when 24 are waiting, and then the oldest. *)
Theorem C40_drops_oldest : forall (F : Type) lat (l : list (jcall F)) jc d, let '(os, b) := jb_run (jb_new lat) l in
  let x := mk_jframe (N.of_nat (length (arrivals 0 l))) d in
  jb_frames (jb_push jc d b) = (if length (jb_frames b) =? 24 then tl (jb_frames b) else jb_frames b) ++ [x].
Proof. exact @jitter_arrival. Qed.
Print Assumptions C40_drops_oldest.

(** C40: a request is answered with the oldest waiting frame when play-out is running or the target
    (between 2 and 14 frames) has been reached, and otherwise with nothing, leaving the queue alone. *)
Theorem C40_playout : forall (F : Type) lat (l : list (jcall F)) jc, let '(os, b) := jb_run (jb_new lat) l in
  2 <= jb_target b <= 14 /\
  (if running os || (jb_target b <=? length (jb_frames b)) then
     match jb_frames b with
     | f :: rest => fst (jb_pop jc b) = Some f /\ jb_frames (snd (jb_pop jc b)) = rest
     | [] => fst (jb_pop jc b) = None /\ jb_frames (snd (jb_pop jc b)) = []
     end
   else fst (jb_pop jc b) = None /\ jb_frames (snd (jb_pop jc b)) = jb_frames b).
Proof. exact @jitter_request. Qed.
Print Assumptions C40_playout.

Example C40_run :
  let push i := (0, Some i) in let pop := (1, None) in
  let '(os, b) := jb_run (jb_new 0) ([pop] ++ map push (seq 0 3) ++ [pop] ++ map push (seq 3 25) ++ [pop; pop]) in
  map (option_map jf_data) os = [None; None; Some 4; Some 5] /\ jb_dropped b = 4%N /\ length (jb_frames b) = 22 /\ jb_target b = 4.
Proof. vm_compute. intuition congruence. Qed.

(** C41: exact conditions under which group and individual addresses are routed over the network. *)
Local Open Scope N_scope.
Theorem C41_group : forall c rs ssi, ranges_from_vec rs = Ok (cr_local c) ->
  (brew_gssi_routable c ssi = true <->
   exists b, cr_brew c = Some b /\ ~ (cb_host b = TETRAPACK_HOST /\ ssi <= 90) /\
     ~ (exists r, In r rs /\ in_range ssi r) /\ (forall w, cb_whitelist b = Some w -> In ssi w)).
Proof. exact gssi_rule. Qed.
Print Assumptions C41_group.
Theorem C41_individual : forall c issi,
  brew_issi_routable c issi = true <->
  exists b, cr_brew c = Some b /\ (cb_host b = TETRAPACK_HOST -> 1000000 <= issi <= 9999999).
Proof. exact issi_rule. Qed.
Print Assumptions C41_individual.
Theorem C41_service : forall c issi,
  is_tetrapack_sds_service c issi = true <->
  (exists b, cr_brew c = Some b /\ cb_host b = TETRAPACK_HOST) /\ (issi = 200999 \/ issi = 262993).
Proof. exact service_rule. Qed.
Print Assumptions C41_service.
Theorem C41_active : forall c, (brew_is_active c = true <-> cr_brew c <> None) /\
  (brew_sds_enabled c = true <-> exists b, cr_brew c = Some b /\ cb_sds_enabled b = true).
Proof. exact active_rule. Qed.
Print Assumptions C41_active.

Example C41_cases :
  let c := mk_cfg_route (Some (mk_cfg_brew "core.tetrapack.online" true None)) [mk_range 100 200] in
  let d := mk_cfg_route (Some (mk_cfg_brew "example.org" true (Some [7; 150; 9]))) [mk_range 100 200] in
  ranges_from_vec [mk_range 100 200] = Ok (cr_local c) /\
  map (brew_gssi_routable c) [90; 91; 100; 199; 200] = [false; true; false; false; true] /\
  map (brew_gssi_routable d) [7; 8; 150] = [true; false; false] /\
  map (brew_issi_routable c) [999999; 1000000; 9999999; 10000000] = [false; true; true; false] /\
  brew_issi_routable d 5 = true /\ brew_gssi_routable (mk_cfg_route None []) 7 = false.
Proof. vm_compute. intuition congruence. Qed.
Local Open Scope nat_scope.

(** C42: in any sequence of calls, whatever the components send while handling messages or ticks,
    messages leave in the prescribed order ([follows]: the latest immediate one first, then normal
    ones in the order sent; given to its destination if that exists, discarded if not), and what is
    in the queue is what has been sent and has not left. *)
Theorem C42_order : forall Ent Msg World ent_eqb (Llc Umac : Ent) (dest : Msg -> Ent) registered
    (rx : Ent -> Msg -> World -> World * list (Msg * prio)) ts_of te_of fuel order l r ev r',
  rt_queue _ _ r = [] -> rrun _ _ _ ent_eqb Llc Umac dest registered rx ts_of te_of fuel order l r = Some (ev, r') ->
  exists w, follows dest registered (mk_waiting [] []) ev w /\ rt_queue _ _ r' = w_immediate w ++ w_normal w.
Proof. exact router_order. Qed.
Print Assumptions C42_order.

(** C42: every message sent has left exactly once or still waits; without immediate messages they
    leave exactly in the order sent; those given to a component are exactly those that left and whose
    destination exists, each once, in that order. *)
Theorem C42_exactly_once : forall Ent Msg World ent_eqb (Llc Umac : Ent) (dest : Msg -> Ent) registered
    (rx : Ent -> Msg -> World -> World * list (Msg * prio)) ts_of te_of fuel order l r ev r',
  rt_queue _ _ r = [] -> rrun _ _ _ ent_eqb Llc Umac dest registered rx ts_of te_of fuel order l r = Some (ev, r') ->
  Permutation (all_sent ev) (left_queue ev ++ rt_queue _ _ r') /\
  (all_normal ev = true -> all_sent ev = left_queue ev ++ rt_queue _ _ r') /\
  given ev = filter (fun m => registered (dest m)) (left_queue ev) /\
  discarded ev = filter (fun m => negb (registered (dest m))) (left_queue ev).
Proof. exact router_exactly_once. Qed.
Print Assumptions C42_exactly_once.

(** C42: the end of a tick runs in three phases (link layer; upper MAC; the others), each starting
    only when every message caused by the previous one has left; afterwards nothing waits and the
    clock has advanced by one slot. *)
Theorem C42_tick_end_phases : forall Ent Msg World ent_eqb (Llc Umac : Ent) (dest : Msg -> Ent) registered
    (rx : Ent -> Msg -> World -> World * list (Msg * prio)) ts_of te_of fuel order l r ev r' ev2 r2,
  rt_queue _ _ r = [] -> rrun _ _ _ ent_eqb Llc Umac dest registered rx ts_of te_of fuel order l r = Some (ev, r') ->
  tick_end _ _ _ ent_eqb Llc Umac dest registered rx te_of fuel order r' = Some (ev2, r2) ->
  rt_queue _ _ r2 = [] /\ rt_ts _ _ r2 = add_timeslots (rt_ts _ _ r') 1 /\
  exists w p1 p2 p3, ev2 = p1 ++ p2 ++ p3 /\ follows dest registered (mk_waiting [] []) ev w /\
    follows dest registered w p1 (mk_waiting [] []) /\ follows dest registered (mk_waiting [] []) p2 (mk_waiting [] []) /\
    follows dest registered (mk_waiting [] []) p3 (mk_waiting [] []) /\
    (forall e, In (Ticked _ _ e) p1 <-> registered Llc = true /\ e = Llc) /\
    (forall e, In (Ticked _ _ e) p2 <-> registered Umac = true /\ e = Umac) /\
    (forall e, In (Ticked _ _ e) p3 <-> In e order /\ ent_eqb e Llc = false /\ ent_eqb e Umac = false).
Proof. exact router_tick_end. Qed.
Print Assumptions C42_tick_end_phases.

(** The main loop of the stack consists of such calls. *)
Theorem C42_main_loop : forall Ent Msg World ent_eqb (Llc Umac : Ent) (dest : Msg -> Ent) registered
    (rx : Ent -> Msg -> World -> World * list (Msg * prio)) ts_of te_of n fuel order r,
  run_stack _ _ _ ent_eqb Llc Umac dest registered rx ts_of te_of n fuel order r =
  rrun _ _ _ ent_eqb Llc Umac dest registered rx ts_of te_of fuel order
    (concat (repeat [TickStart Msg; DeliverAll Msg; TickEnd Msg] n)) r.
Proof. exact run_stack_calls. Qed.
Print Assumptions C42_main_loop.

(** Components 0 (link layer), 1 (upper MAC), 2; message [n] goes to component [n mod 4], component 3
    does not exist; handling a message above 100 sends two more. *)
Example C42_run :
  let rx (e m w : nat) := (w + m, if 100 <? m then [(m - 100, Normal); (m - 99, Immediate)] else []) in
  let tick (e : nat) (t : tdma_time) (w : nat) := (w, [(4 + e, Normal)]) in
  let r0 := mk_router nat nat [] 0 (mk_time 1 1 1 0) in
  match rrun nat nat nat Nat.eqb 0 1 (fun m => m mod 4) (fun e => e <? 3) rx tick tick 50 [0; 1; 2]
          [Submit _ 104; Submit _ 6; Submit _ 7; DeliverOne _; DeliverAll _; TickEnd _; TickStart _] r0 with
  | Some (ev, r) => given ev = [104; 5; 6; 4; 4; 5; 6] /\ discarded ev = [7] /\ rt_queue _ _ r = [4; 5; 6] /\ rt_ts _ _ r = mk_time 2 1 1 0
  | None => False
  end.
Proof. vm_compute. intuition congruence. Qed.

(** C49: the 274 speech bits of an uplink block (one per byte; anything after them is ignored) come
    out of the downlink speech block again, whether looped back locally or sent over the network and
    received there. *)
Theorem C49_loopback : forall s extra, length s = 274 ->
  exists out b, pack_ul_acelp_bits (map N.b2n s ++ extra) = Ok (Some out) /\ length out = 35 /\
    dl_speech_block out = Ok b /\ to_bitstr b = Ok s.
Proof. exact voice_loopback. Qed.
Print Assumptions C49_loopback.
Theorem C49_network : forall s extra, length s = 274 ->
  exists ste block b, ul_voice_to_ste (map N.b2n s ++ extra) = Ok (Some ste) /\ length ste = 36 /\
    ste_to_acelp ste = Some block /\ dl_speech_block block = Ok b /\ to_bitstr b = Ok s.
Proof. exact voice_network. Qed.
Print Assumptions C49_network.
Theorem C49_packed : forall out, length out = 35 -> Forall isbyte out ->
  pack_ul_acelp_bits out = Ok (Some out) /\ ul_voice_to_ste out = Ok (Some (0%N :: out)) /\ ste_to_acelp (0%N :: out) = Some out /\
  exists b, dl_speech_block out = Ok b /\ to_bitstr b = Ok (bits_rng out 0 274).
Proof. exact voice_packed_passthrough. Qed.
Print Assumptions C49_packed.
Theorem C49_short_rejected : forall bits, length bits < 274 ->
  (length bits <> 35 -> pack_ul_acelp_bits bits = Ok None) /\
  (length bits <> 35 -> length bits <> 36 -> ul_voice_to_ste bits = Ok None) /\
  (length bits < 36 -> ste_to_acelp bits = None).
Proof. exact voice_short_rejected. Qed.
Print Assumptions C49_short_rejected.
(** C49: a block that was accepted always fills the downlink speech block. *)
Theorem C49_accepted_blocks_fill : forall bits out, Forall isbyte bits ->
  (pack_ul_acelp_bits bits = Ok (Some out) \/ ste_to_acelp bits = Some out) ->
  exists b, dl_speech_block out = Ok b /\ length (window b) = 274.
Proof. exact accepted_blocks_long. Qed.
Print Assumptions C49_accepted_blocks_fill.

Example C49_met : let s := map (fun i => Nat.even (i / 3)) (seq 0 274) in
  length s = 274 /\
  match pack_ul_acelp_bits (map N.b2n s) with Ok (Some out) => firstn 3 out = [227; 142; 56]%N /\ nth 34 out 0%N = 128%N | _ => False end.
Proof. vm_compute. intuition congruence. Qed.

Local Open Scope Z_scope.
(** C51 *)
Theorem C51_network_time : forall year secs off,
  2000 <= year < 2064 -> 0 <= secs < 366 * 86400 -> Z.abs off < 64 * 900 ->
  let v := encode_network_time year secs off in
  let d := read_network_time v in
  0 <= v < 2 ^ 48 /\
  2 * nt_utc d <= secs < 2 * nt_utc d + 2 /\
  (nt_negative d = true <-> off < 0) /\
  900 * nt_offset d <= Z.abs off < 900 * nt_offset d + 900 /\
  2000 + nt_year d = year /\ nt_reserved d = 2047.
Proof. exact network_time_decodes. Qed.
Print Assumptions C51_network_time.

Example C51_met : let v := encode_network_time 2026 (45 * 86400 + 12 * 3600 + 1) (-12600) in
  read_network_time v = mk_nt (45 * 43200 + 6 * 3600) true 14 26 2047.
Proof. vm_compute. reflexivity. Qed.
