(** Specification of uplink slot granting.  Uplink slots are numbered by absolute slot number (an integer
    that increases by one every slot); its TDMA time is [from_int].  A subslot is a slot number and [false]
    (first half) or [true] (second half). *)
From Verif Require Import Base MacFields TdmaTime UlSched.
Open Scope N_scope.

Definition subslot := (Z * bool)%type.
Definition sub_eqb (a b : subslot) : bool := (fst a =? fst b)%Z && Bool.eqb (snd a) (snd b).

(** The first slot, from slot [now] on, that belongs to timeslot [t] (1..4). *)
Definition first_at (now t : Z) : Z := (now + (t - 1 - now) mod 4)%Z.
(** Every fourth slot from there on is an opportunity unless it is reserved for linearisation (CLCH). *)
Definition opportunities (frames : nat) (x : Z) : list Z :=
  filter (fun y => negb (is_mandatory_clch (from_int y))) (map (fun i => (x + 4 * Z.of_nat i)%Z) (seq 0 frames)).
(** Number of slots of a capacity code (codes 1..14 of the capacity allocation element). *)
Definition slots_of (c : N) : nat := N.to_nat (nth (N.to_nat c) [0; 1; 2; 3; 4; 5; 6; 8; 10; 13; 17; 24; 34; 51; 68] 0).
(** Opportunities to skip. *)
Definition delay_of (d : grant_delay) : nat := match d with GdDelay n => N.to_nat n | _ => 0%nat end.

(** What a radio that is given grant [g] for timeslot [t] in the frame following slot [now] will use. *)
Definition told (now t : Z) (g : slotgrant) : list subslot :=
  let ops := skipn (delay_of (sg_delay g)) (opportunities 40 (first_at now t)) in
  if sg_cap g =? 0 then map (fun x => (x, false)) (firstn 1 ops)
  else if sg_cap g =? 15 then map (fun x => (x, true)) (firstn 1 ops)
  else flat_map (fun x => [(x, false); (x, true)]) (firstn (slots_of (sg_cap g)) ops).
(** What was asked for: the number of subslots of a request code (0 = one subslot). *)
Definition asked (req : N) : nat := if req =? 0 then 1%nat else (2 * slots_of req)%nat.

(** A grant that was given: when, for which timeslot, to whom, for what request. *)
Record grant_rec := mk_gr { gr_now : Z; gr_t : Z; gr_ssi : N; gr_req : N; gr_grant : slotgrant }.
Definition gr_subs (g : grant_rec) : list subslot := told (gr_now g) (gr_t g) (gr_grant g).
(** Who was told to use a subslot. *)
Definition holder (l : list grant_rec) (p : subslot) : option N :=
  match find (fun g => existsb (sub_eqb p) (gr_subs g)) l with Some g => Some (gr_ssi g) | None => None end.

(** A slot can serve request [req] if it has a free subslot (request for one subslot) or is entirely free. *)
Definition sfree (l : list grant_rec) (req : N) (y : Z) : bool :=
  let free h := match holder l (y, h) with None => true | Some _ => false end in
  if req =? 0 then free false || free true else free false && free true.
(** Number of slots a request needs. *)
Definition need (req : N) : nat := if req =? 0 then 1%nat else slots_of req.

(** Histories: the passing of a slot (the schedule cell of the slot that has just gone is cleared) and requests. *)
Inductive ul_event := UlTick | UlReq (t : Z) (ssi : N) (req : N).
Definition ul_event_ok (e : ul_event) : Prop := match e with UlTick => True | UlReq t _ req => (1 <= t <= 4)%Z /\ req <= 14 end.
Fixpoint ul_run (s : ulsched) (now : Z) (l : list grant_rec) (evs : list ul_event) : res (ulsched * Z * list grant_rec) :=
  match evs with
  | [] => Ok (s, now, l)
  | UlTick :: r => s <- ul_clear (from_int (now + 2)) s ;; ul_run s (now + 1) l r
  | UlReq t ssi req :: r =>
      ' (g, s) <- ul_process_cap_req (from_int now) t ssi req s ;;
      ul_run s now (match g with Some g => l ++ [mk_gr now t ssi req g] | None => l end) r
  end.
(** Comparison of subslot lists (for examples). *)
Fixpoint forallb2_subs (a b : list subslot) : bool :=
  match a, b with [], [] => true | x :: a, y :: b => sub_eqb x y && forallb2_subs a b | _, _ => false end.
