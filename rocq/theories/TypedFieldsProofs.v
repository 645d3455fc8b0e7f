(** Proofs about optional and identified PDU elements. *)
From Verif Require Import Base BitsLib BitBuffer BitBufferProofs BitBufferOps Codec CodecProofs TypedFields.
Open Scope N_scope.

(** The bits that follow are not an element with identifier [id]. *)
Definition no_elem (id : N) (rest : list bool) : Prop :=
  match rest with
  | [] => False
  | false :: _ => True
  | true :: t => (4 <= length t)%nat /\ bits_val (firstn 4 t) <> id
  end.

Lemma firstn_bits_of_app n v rest : firstn n (bits_of n v ++ rest) = bits_of n v.
Proof.
  rewrite firstn_app, bits_of_length, Nat.sub_diag, firstn_O, app_nil_r.
  apply firstn_all2. rewrite bits_of_length. lia.
Qed.

Lemma peek_elem b id (W : wf b) rest :
  id < 16 -> remaining b = true :: bits_of 4 id ++ rest -> peek_type34_mbit_and_id id b = Ok (true, b).
Proof.
  intros Hid E. unfold peek_type34_mbit_and_id. rewrite peek_bits_spec by (assumption || lia).
  rewrite E. cbn [length Nat.leb firstn bind bits_val]. change (bits_val [true]) with 1. cbn [N.eqb].
  rewrite (peek_posoffset_spec b 1 4 W) by lia. rewrite E. cbn [length skipn]. rewrite app_length, bits_of_length.
  replace (1 + 4 <=? S (4 + length rest))%nat with true by (symmetry; apply Nat.leb_le; lia).
  cbn [bind]. rewrite firstn_bits_of_app. rewrite bits_val_of by exact Hid.
  rewrite N.eqb_refl. reflexivity.
Qed.

Lemma peek_no_elem b id (W : wf b) : no_elem id (remaining b) -> peek_type34_mbit_and_id id b = Ok (false, b).
Proof.
  intros H. unfold peek_type34_mbit_and_id. rewrite peek_bits_spec by (assumption || lia).
  unfold no_elem in H. destruct (remaining b) as [|[|] t] eqn:E; [tauto| |].
  - cbn [length Nat.leb firstn bind]. change (bits_val [true]) with 1. cbn [N.eqb].
    rewrite (peek_posoffset_spec b 1 4 W) by lia. rewrite E. cbn [length skipn].
    replace (1 + 4 <=? S (length t))%nat with true by (symmetry; apply Nat.leb_le; lia).
    cbn [bind]. replace (bits_val (firstn 4 t) =? id) with false by (symmetry; apply N.eqb_neq; tauto). reflexivity.
  - cbn [length Nat.leb firstn bind]. reflexivity.
Qed.

Lemma seek_rel_adv b n : wf b -> (n <= length (remaining b))%nat -> seek_rel (Z.of_nat n) b = Ok (adv b n).
Proof.
  intros (H1 & H2 & H3 & H4) Hn. rewrite remaining_length in Hn. unfold seek_rel.
  replace ((Z.of_nat (bstart b) <=? Z.of_nat (bpos b) + Z.of_nat n) && (Z.of_nat (bpos b) + Z.of_nat n <=? Z.of_nat (bend b)))%Z with true by lia.
  cbn [assert bind]. unfold adv. do 2 f_equal. lia.
Qed.
Lemma seek_rel_too_far b n : wf b -> (length (remaining b) < n)%nat -> seek_rel (Z.of_nat n) b = Panic.
Proof.
  intros (H1 & H2 & H3 & H4) Hn. rewrite remaining_length in Hn. unfold seek_rel.
  replace ((Z.of_nat (bstart b) <=? Z.of_nat (bpos b) + Z.of_nat n) && (Z.of_nat (bpos b) + Z.of_nat n <=? Z.of_nat (bend b)))%Z with false by lia.
  reflexivity.
Qed.

Lemma reads_seek n l : length l = n -> reads (rseek_rel (Z.of_nat n)) l tt.
Proof.
  intros Hl b rest W E. unfold rseek_rel. rewrite seek_rel_adv; [|assumption|rewrite E, app_length; lia].
  cbn [bind]. now rewrite Hl.
Qed.

Lemma get_pos_ok b : wf b -> get_pos b = Ok (bpos b - bstart b)%nat.
Proof. intros (H1 & _). unfold get_pos, sub_checked. destruct (Nat.leb_spec (bstart b) (bpos b)); [reflexivity|lia]. Qed.

(** ** Type 2 *)
Lemma type2_generic_present obit v n :
  obit = true -> (n <= 64)%nat -> v < 2 ^ N.of_nat n ->
  writes (write_type2_generic obit (Some v) n) (true :: bits_of n v) /\
  reads (parse_type2_generic obit n) (true :: bits_of n v) (Some v).
Proof.
  intros -> Hn Hv. split.
  - apply (writes_then _ _ [true] (bits_of n v)); [apply (writes_bit true)|now apply writes_field].
  - apply (reads_bind read_pbit _ [true] (bits_of n v) true); [apply reads_flag|].
    cbn iota. rewrite <- (app_nil_r (bits_of n v)). eapply reads_bind; [now apply reads_field|apply reads_ret].
Qed.
Lemma type2_generic_absent obit n :
  obit = true ->
  writes (write_type2_generic obit None n) [false] /\ reads (parse_type2_generic obit n) [false] None.
Proof.
  intros ->. split; [apply (writes_bit false)|].
  apply (reads_bind read_pbit _ [false] [] false); [apply reads_flag|apply reads_ret].
Qed.
Lemma type2_struct_present {T} obit (w : T -> wr) (r : reader T) v l :
  obit = true -> writes (w v) l -> reads r l v ->
  writes (write_type2_struct obit (Some v) w) (true :: l) /\
  reads (parse_type2_struct obit r) (true :: l) (Some v).
Proof.
  intros -> Hw Hr. split.
  - apply (writes_then _ _ [true] l); [apply (writes_bit true)|exact Hw].
  - apply (reads_bind read_pbit _ [true] l true); [apply reads_flag|].
    cbn iota. rewrite <- (app_nil_r l). eapply reads_bind; [exact Hr|apply reads_ret].
Qed.
Lemma type2_struct_absent {T} obit (w : T -> wr) (r : reader T) :
  obit = true ->
  writes (write_type2_struct obit None w) [false] /\ reads (parse_type2_struct obit r) [false] None.
Proof.
  intros ->. split; [apply (writes_bit false)|].
  apply (reads_bind read_pbit _ [false] [] false); [apply reads_flag|apply reads_ret].
Qed.

(** ** Back-filled headers *)

Lemma backfill b b1 p l (y : list bool) k (w : wr) :
  wf b -> wrote b b1 (p ++ repeat false k ++ l) -> length y = k -> writes w y ->
  exists b', (set_raw_pos (bpos b + length p) >> w >> set_raw_pos (bpos b1)) b1 = Ok b' /\ wrote b b' (p ++ y ++ l).
Proof.
  intros W O Hy Hw. pose proof O as (W1 & S1 & A1 & P1 & L1 & B1 & E1 & F1 & G1).
  rewrite !app_length, repeat_length in P1.
  pose proof W1 as (W1a & W1b & W1c & W1d). pose proof W as (Wa & Wb & Wc & Wd).
  unfold wthen, set_raw_pos at 1.
  replace (bstart b1 <=? bpos b + length p)%nat with true by (symmetry; apply Nat.leb_le; lia).
  replace (bpos b + length p <=? bend b1)%nat with true by (symmetry; apply Nat.leb_le; lia).
  cbn [assert bind].
  set (b2 := set_pos b1 (bpos b + length p)).
  assert (wf b2) as W2.
  { unfold b2, wf, cap in *. cbn [set_pos bytes bstart bpos bend]. repeat split; try lia; assumption. }
  destruct (Hw b2 W2) as (b3 & E3 & O3).
  { right. unfold b2. cbn [set_pos bpos bend]. lia. }
  rewrite E3. cbn [bind].
  assert (wrote b (set_pos b3 (bpos b1)) (p ++ y ++ l)) as OF.
  { eapply wrote_patch; [exact W|exact O|rewrite repeat_length; exact Hy|exact O3]. }
  exists (set_pos b3 (bpos b1)). split; [|exact OF].
  destruct OF as ((Q1 & Q2 & _) & _). cbn [set_pos bytes bstart bpos bend autoexp] in Q1, Q2.
  unfold set_raw_pos. destruct (Nat.leb_spec (bstart b3) (bpos b1)); [|lia].
  destruct (Nat.leb_spec (bpos b1) (bend b3)); [|lia]. reflexivity.
Qed.

Lemma writes_header id : id < 16 -> writes (write_type34_header_generic id) (true :: bits_of 4 id).
Proof.
  intros H. apply (writes_then _ _ [true] (bits_of 4 id)); [apply (writes_bit true)|].
  apply writes_field; [lia|]. change (2 ^ N.of_nat 4) with 16. exact H.
Qed.

(** The bits of a type 3 element with content [l]. *)
Definition type3_bits (id : N) (l : list bool) : list bool :=
  (true :: bits_of 4 id) ++ bits_of 11 (N.of_nat (length l)) ++ l.
(** The bits of a type 4 element with [n] elements whose concatenated content is [l]. *)
Definition type4_bits (id : N) (n : nat) (l : list bool) : list bool :=
  (true :: bits_of 4 id) ++ (bits_of 11 (N.of_nat (6 + length l)) ++ bits_of 6 (N.of_nat n)) ++ l.

Lemma wthen_assoc (w1 w2 w3 : wr) b : ((w1 >> w2) >> w3) b = (w1 >> w2 >> w3) b.
Proof. unfold wthen. destruct (w1 b); reflexivity. Qed.

Lemma write_type3_struct_spec {T} (w : T -> wr) v id l :
  id < 16 -> N.of_nat (length l) < 2048 -> writes (w v) l ->
  writes (write_type3_struct true (Some v) id w) (type3_bits id l).
Proof.
  intros Hid Hl Hw b W R.
  set (hd := true :: bits_of 4 id).
  assert (length hd = 5%nat) as Hhd by (unfold hd; cbn [length]; now rewrite bits_of_length).
  unfold type3_bits in R. fold hd in R. rewrite !app_length, bits_of_length in R.
  destruct (writes_header id Hid b W) as (b1 & E1 & O1); [eapply room_mono; [exact R|fold hd; lia]|].
  fold hd in O1. pose proof O1 as (W1 & _ & _ & P1 & _).
  destruct (writes_field 0 11) with (b := b1) as (b2 & E2 & O2); [lia|reflexivity|exact W1| |].
  { rewrite bits_of_length. eapply room_after; [exact O1|]. eapply room_mono; [exact R|]. lia. }
  pose proof (wrote_trans _ _ _ _ _ O1 O2) as O12. pose proof O2 as (W2 & _ & _ & P2 & _).
  destruct (Hw b2 W2) as (b3 & E3 & O3).
  { eapply room_after; [exact O12|]. rewrite app_length, bits_of_length. eapply room_mono; [exact R|]. lia. }
  pose proof (wrote_trans _ _ _ _ _ O12 O3) as O. rewrite <- app_assoc in O. rewrite bits_of_0 in O.
  pose proof O3 as (_ & _ & _ & P3 & _). rewrite bits_of_length in P2.
  unfold write_type3_struct. cbn [negb andb is_some].
  cbv [wthen w_with_pos] in *. rewrite E1. cbn [bind]. rewrite E2. cbn [bind]. rewrite E3. cbn [bind].
  destruct (backfill b b3 hd l (bits_of 11 (N.of_nat (length l))) 11 (wfield (N.of_nat (length l)) 11) W O) as (b' & E' & O').
  { apply bits_of_length. }
  { apply writes_field; [lia|exact Hl]. }
  exists b'. split; [|exact O']. rewrite <- E'. unfold wthen.
  replace (bpos b3 - bpos b1 - 11)%nat with (length l) by lia.
  replace (bpos b + length hd)%nat with (bpos b1) by lia. reflexivity.
Qed.

(** Header of an element: m-bit and identifier consumed by peek + seek. *)
Lemma read_header_elem {A} id l (x : A) (k : reader A) :
  id < 16 -> reads k l x ->
  reads (present <~ peek_type34_mbit_and_id id ;; if negb present then rerr ENone else rseek_rel 5 ;~ k)
        ((true :: bits_of 4 id) ++ l) x.
Proof.
  intros Hid Hk b rest W E. unfold rbind at 1.
  rewrite (peek_elem b id W (l ++ rest)); [|assumption|rewrite E; cbn [app]; now rewrite <- app_assoc].
  cbn [bind fst snd negb].
  revert b rest W E. change (reads (rseek_rel 5 ;~ k) ((true :: bits_of 4 id) ++ l) x).
  eapply reads_bind; [apply (reads_seek 5); reflexivity|exact Hk].
Qed.

Lemma reads_present {A} id (f : bool -> reader A) l x :
  id < 16 -> reads (f true) ((true :: bits_of 4 id) ++ l) x ->
  reads (present <~ peek_type34_mbit_and_id id ;; f present) ((true :: bits_of 4 id) ++ l) x.
Proof.
  intros Hid Hk b rest W E. unfold rbind.
  rewrite (peek_elem b id W (l ++ rest)); [|assumption|rewrite E; cbn [app]; now rewrite <- app_assoc].
  cbn [bind fst snd]. exact (Hk b rest W E).
Qed.

Lemma parse_type3_struct_spec {T} (r : reader T) v id l :
  id < 16 -> N.of_nat (length l) < 2048 -> reads r l v ->
  reads (parse_type3_struct true id r) (type3_bits id l) (Some v).
Proof.
  intros Hid Hl Hr. unfold parse_type3_struct, type3_bits. cbn [negb].
  apply (reads_present id (fun present => if negb present then rret None else _)); [assumption|]. cbn [negb].
  eapply reads_bind; [apply (reads_seek 5); reflexivity|].
  eapply reads_bind; [apply reads_field; [lia|exact Hl]|].
  intros b rest W E. unfold rbind, rget_pos. rewrite get_pos_ok by assumption. cbn [bind fst snd].
  rewrite (Hr b rest W E). cbn [bind fst snd].
  assert (wf (adv b (length l))) as W' by (apply wf_adv; [assumption|rewrite E, app_length; lia]).
  rewrite get_pos_ok by assumption. cbn [bind fst snd]. rewrite Nat2N.id.
  destruct W as (Wa & _). unfold adv at 1 2. cbn [set_pos bpos bstart].
  replace (bpos b - bstart b + length l =? bpos b + length l - bstart b)%nat with true by (symmetry; apply Nat.eqb_eq; lia).
  reflexivity.
Qed.

Lemma parse_type3_absent {T} (r : reader T) id : readsF (no_elem id) (parse_type3_struct true id r) [] None.
Proof.
  intros b rest W F E. cbn [app] in E. unfold parse_type3_struct. cbn [negb]. unfold rbind at 1.
  rewrite peek_no_elem by (rewrite ?E; assumption). cbn [bind fst snd negb length]. now rewrite adv_0.
Qed.
Lemma parse_type3_generic_absent id : readsF (no_elem id) (parse_type3_generic true id) [] None.
Proof.
  intros b rest W F E. cbn [app] in E. unfold parse_type3_generic. cbn [negb]. unfold rbind at 1.
  rewrite peek_no_elem by (rewrite ?E; assumption). cbn [bind fst snd negb length]. now rewrite adv_0.
Qed.
Lemma parse_type4_header_absent id : readsF (no_elem id) (parse_type4_header id) [] None.
Proof.
  intros b rest W F E. cbn [app] in E. unfold parse_type4_header. unfold rbind at 1.
  rewrite peek_no_elem by (rewrite ?E; assumption). cbn [bind fst snd negb length]. now rewrite adv_0.
Qed.
Lemma parse_type4_absent {T} (r : reader T) id : readsF (no_elem id) (parse_type4_struct true id r) [] None.
Proof.
  unfold parse_type4_struct. cbn [negb]. apply (readsF_bind (no_elem id) (no_elem id) _ _ [] [] None None).
  - apply parse_type4_header_absent.
  - apply reads_readsF, reads_ret.
  - auto.
Qed.
Lemma parse_type4_generic_absent id : readsF (no_elem id) (parse_type4_generic true id) [] None.
Proof.
  unfold parse_type4_generic. cbn [negb]. apply (readsF_bind (no_elem id) (no_elem id) _ _ [] [] None None).
  - apply parse_type4_header_absent.
  - apply reads_readsF, reads_ret.
  - auto.
Qed.

(** Type 3, placeholder representation *)
Lemma type3_generic_present e id :
  id < 16 -> (t3_len e <= 64)%nat -> t3_data e < 2 ^ N.of_nat (t3_len e) -> t3_id e = id ->
  writes (write_type3_generic true (Some e) id) (type3_bits id (bits_of (t3_len e) (t3_data e))) /\
  reads (parse_type3_generic true id) (type3_bits id (bits_of (t3_len e) (t3_data e))) (Some e).
Proof.
  intros Hid Hn Hd He. unfold type3_bits. rewrite bits_of_length. split.
  - unfold write_type3_generic. cbn [negb andb is_some]. eapply writes_then; [now apply writes_header|].
    eapply writes_then; [|now apply writes_field].
    apply writes_field; [lia|]. change (2 ^ N.of_nat 11) with 2048. lia.
  - unfold parse_type3_generic. cbn [negb].
    apply (reads_present id (fun present => if negb present then rret None else _)); [assumption|]. cbn [negb].
    eapply reads_bind; [apply (reads_seek 5); reflexivity|].
    eapply reads_bind; [apply reads_field; [lia|change (2 ^ N.of_nat 11) with 2048; lia]|].
    rewrite Nat2N.id. cbv zeta. destruct (Nat.ltb_spec 64 (t3_len e)); [lia|].
    rewrite <- (app_nil_r (bits_of _ _)). eapply reads_bind; [now apply reads_field|].
    apply reads_bind0 with (x := tt); [apply reads_ret|]. subst id. destruct e; apply reads_ret.
Qed.

(** ** Type 4 *)
Lemma write_elems_spec {T} (w : T -> wr) vs ls :
  Forall2 (fun v l => writes (w v) l) vs ls -> writes (write_elems w vs) (concat ls).
Proof. induction 1; cbn [write_elems concat]; [apply writes_ret|]. now apply writes_then. Qed.
Lemma parse_elems_spec {T} (r : reader T) vs ls :
  Forall2 (fun v l => reads r l v) vs ls -> reads (parse_elems (length vs) r) (concat ls) vs.
Proof.
  induction 1; cbn [parse_elems concat length]; [apply reads_ret|].
  eapply reads_bind; [eassumption|]. rewrite <- (app_nil_r (concat l')). eapply reads_bind; [eassumption|apply reads_ret].
Qed.

Lemma write_type4_struct_spec {T} (w : T -> wr) vs id ls :
  id < 16 -> N.of_nat (6 + length (concat ls)) < 2048 -> N.of_nat (length vs) < 64 ->
  Forall2 (fun v l => writes (w v) l) vs ls ->
  writes (write_type4_struct true (Some vs) id w) (type4_bits id (length vs) (concat ls)).
Proof.
  intros Hid Hl Hn Hw b W R. apply write_elems_spec in Hw. set (l := concat ls) in *.
  set (hd := true :: bits_of 4 id).
  assert (length hd = 5%nat) as Hhd by (unfold hd; cbn [length]; now rewrite bits_of_length).
  unfold type4_bits in R. fold hd in R. rewrite !app_length, !bits_of_length in R.
  destruct (writes_header id Hid b W) as (b1 & E1 & O1); [eapply room_mono; [exact R|fold hd; lia]|].
  fold hd in O1. pose proof O1 as (W1 & _ & _ & P1 & _).
  destruct (writes_field 0 17) with (b := b1) as (b2 & E2 & O2); [lia|reflexivity|exact W1| |].
  { rewrite bits_of_length. eapply room_after; [exact O1|]. eapply room_mono; [exact R|]. lia. }
  pose proof (wrote_trans _ _ _ _ _ O1 O2) as O12. pose proof O2 as (W2 & _ & _ & P2 & _).
  destruct (Hw b2 W2) as (b3 & E3 & O3).
  { eapply room_after; [exact O12|]. rewrite app_length, bits_of_length. eapply room_mono; [exact R|]. lia. }
  pose proof (wrote_trans _ _ _ _ _ O12 O3) as O. rewrite <- app_assoc in O. rewrite bits_of_0 in O.
  pose proof O3 as (_ & _ & _ & P3 & _). rewrite bits_of_length in P2.
  unfold write_type4_struct. cbn [negb andb is_some].
  cbv [wthen w_with_pos] in *. rewrite E1. cbn [bind]. rewrite E2. cbn [bind]. rewrite E3. cbn [bind].
  destruct (backfill b b3 hd l (bits_of 11 (N.of_nat (6 + length l)) ++ bits_of 6 (N.of_nat (length vs))) 17
              (wfield (N.of_nat (6 + length l)) 11 >> wfield (N.of_nat (length vs)) 6) W O) as (b' & E' & O').
  { rewrite app_length, !bits_of_length. reflexivity. }
  { apply writes_then; (apply writes_field; [lia|first [exact Hl|exact Hn]]). }
  exists b'. split; [|exact O']. rewrite <- E'. unfold wthen.
  replace (bpos b3 - bpos b1 - 11)%nat with (6 + length l)%nat by lia.
  replace (bpos b + length hd)%nat with (bpos b1) by lia.
  destruct (set_raw_pos (bpos b1) b3) as [b4| |]; cbn [bind]; try reflexivity.
  destruct (wfield (N.of_nat (6 + length l)) 11 b4); reflexivity.
Qed.

Lemma parse_type4_header_spec id n (l : list bool) :
  id < 16 -> N.of_nat (6 + length l) < 2048 -> N.of_nat n < 64 ->
  reads (parse_type4_header id) ((true :: bits_of 4 id) ++ (bits_of 11 (N.of_nat (6 + length l)) ++ bits_of 6 (N.of_nat n)))
    (Some (n, length l)).
Proof.
  intros Hid Hl Hn. unfold parse_type4_header.
  apply (reads_present id (fun present => if negb present then rret None else _)); [assumption|]. cbn [negb].
  eapply reads_bind; [apply (reads_seek 5); reflexivity|].
  eapply reads_bind; [apply reads_field; [lia|exact Hl]|].
  rewrite <- (app_nil_r (bits_of 6 _)).
  eapply reads_bind; [apply reads_field; [lia|exact Hn]|].
  apply reads_bind0 with (x := length l).
  - apply reads_lift. unfold sub_checked. rewrite Nat2N.id. destruct (Nat.leb_spec 6 (6 + length l)); [|lia]. f_equal. lia.
  - rewrite Nat2N.id. apply reads_ret.
Qed.

Lemma parse_type4_struct_spec {T} (r : reader T) vs id ls :
  id < 16 -> N.of_nat (6 + length (concat ls)) < 2048 -> N.of_nat (length vs) < 64 ->
  Forall2 (fun v l => reads r l v) vs ls ->
  reads (parse_type4_struct true id r) (type4_bits id (length vs) (concat ls)) (Some vs).
Proof.
  intros Hid Hl Hn Hr. apply parse_elems_spec in Hr. set (l := concat ls) in *.
  unfold parse_type4_struct, type4_bits. cbn [negb]. rewrite app_assoc.
  eapply reads_bind; [now apply parse_type4_header_spec|]. cbn iota.
  intros b rest W E. unfold rbind, rget_pos. rewrite get_pos_ok by assumption. cbn [bind fst snd].
  rewrite (Hr b rest W E). cbn [bind fst snd].
  assert (wf (adv b (length l))) as W' by (apply wf_adv; [assumption|rewrite E, app_length; lia]).
  rewrite get_pos_ok by assumption. cbn [bind fst snd].
  destruct W as (Wa & _). unfold adv at 1 2. cbn [set_pos bpos bstart].
  replace (bpos b - bstart b + length l =? bpos b + length l - bstart b)%nat with true by (symmetry; apply Nat.eqb_eq; lia).
  reflexivity.
Qed.

(** What follows a present element is not an element with another identifier. *)
Lemma no_elem_type3 id id' l rest : id' < 16 -> id <> id' -> no_elem id (type3_bits id' l ++ rest).
Proof.
  intros H Hn. unfold type3_bits, no_elem. cbn [app]. rewrite <- !app_assoc. split.
  - rewrite app_length, bits_of_length. lia.
  - rewrite firstn_bits_of_app, bits_val_of by exact H. congruence.
Qed.
Lemma no_elem_type4 id id' n l rest : id' < 16 -> id <> id' -> no_elem id (type4_bits id' n l ++ rest).
Proof.
  intros H Hn. unfold type4_bits, no_elem. cbn [app]. rewrite <- !app_assoc. split.
  - rewrite app_length, bits_of_length. lia.
  - rewrite firstn_bits_of_app, bits_val_of by exact H. congruence.
Qed.
Lemma no_elem_stop id rest : no_elem id ([false] ++ rest).
Proof. exact I. Qed.

(** ** Never panicking *)
Lemma rsafe_peek id : rsafe (peek_type34_mbit_and_id id).
Proof.
  intros b W. unfold peek_type34_mbit_and_id. rewrite peek_bits_spec by (assumption || lia). cbn [bind].
  destruct (Nat.leb_spec 1 (length (remaining b))); [|exact I].
  destruct (remaining b) as [|x t] eqn:E; [cbn in *; lia|].
  assert (exists n, b = adv b n /\ (n <= length (x :: t))%nat) as HB by (exists 0%nat; rewrite adv_0; split; [reflexivity|lia]).
  cbn [firstn]. destruct x.
  - change (bits_val [true]) with 1. cbn [N.eqb]. rewrite (peek_posoffset_spec b 1 4 W) by lia. cbn [bind].
    destruct (_ <=? _)%nat; [exact HB|exact I].
  - change (bits_val [false]) with 0. exact HB.
Qed.

(** When [peek] answers "present", at least 5 bits are there. *)
Lemma peek_present_len id b b' : wf b -> peek_type34_mbit_and_id id b = Ok (true, b') ->
  b' = b /\ (5 <= length (remaining b))%nat.
Proof.
  intros W. unfold peek_type34_mbit_and_id. rewrite peek_bits_spec by (assumption || lia). cbn [bind].
  destruct (Nat.leb_spec 1 (length (remaining b))); [|discriminate].
  destruct (bits_val _ =? 0); [discriminate|]. destruct (bits_val _ =? 1); [|discriminate].
  rewrite (peek_posoffset_spec b 1 4 W) by lia. cbn [bind].
  destruct (Nat.leb_spec (1 + 4) (length (remaining b))); [|discriminate]. intros E. split; [congruence|lia].
Qed.

Lemma rsafe_after_peek {A} id (k0 k1 : reader A) :
  rsafe k0 -> rsafe k1 ->
  rsafe (present <~ peek_type34_mbit_and_id id ;; if negb present then k0 else rseek_rel 5 ;~ k1).
Proof.
  intros H0 H1 b W. pose proof (rsafe_peek id b W) as HP. unfold rbind at 1.
  destruct (peek_type34_mbit_and_id id b) as [[[|] b']| |] eqn:E; cbn [bind fst snd negb]; try exact HP.
  - destruct (peek_present_len _ _ _ W E) as (-> & H5). unfold rbind, rseek_rel.
    rewrite (seek_rel_adv b 5 W H5 : seek_rel 5 b = _). cbn [bind fst snd].
    specialize (H1 (adv b 5) (wf_adv _ _ W H5)). destruct (k1 (adv b 5)) as [[y b2]| |]; try exact H1.
    destruct H1 as (m & -> & Hm). exists (5 + m)%nat. rewrite adv_adv. split; [reflexivity|].
    rewrite remaining_adv, skipn_length in Hm by assumption. lia.
  - destruct HP as (n & -> & Hn). specialize (H0 (adv b n) (wf_adv _ _ W Hn)).
    destruct (k0 (adv b n)) as [[y b2]| |]; try exact H0.
    destruct H0 as (m & -> & Hm). exists (n + m)%nat. rewrite adv_adv. split; [reflexivity|].
    rewrite remaining_adv, skipn_length in Hm by assumption. lia.
Qed.

Lemma rsafe_type2_generic obit n : (n <= 64)%nat -> rsafe (parse_type2_generic obit n).
Proof.
  intros Hn. unfold parse_type2_generic. apply rsafe_if; [apply rsafe_ret|].
  apply rsafe_bind; [apply rsafe_flag|]. intros x. apply rsafe_if; [|apply rsafe_ret].
  apply rsafe_bind; [now apply rsafe_field|]. intros; apply rsafe_ret.
Qed.
Lemma rsafe_type2_struct {T} obit (r : reader T) : rsafe r -> rsafe (parse_type2_struct obit r).
Proof.
  intros Hr. unfold parse_type2_struct. apply rsafe_if; [apply rsafe_ret|].
  apply rsafe_bind; [apply rsafe_flag|]. intros x. apply rsafe_if; [|apply rsafe_ret].
  apply rsafe_bind; [assumption|]. intros; apply rsafe_ret.
Qed.

(** Parsing a body between two [get_pos] calls. *)
Lemma rsafe_between {A B} (r : reader A) (chk : nat -> nat -> bool) (f : A -> B) :
  rsafe r ->
  rsafe (start_pos <~ rget_pos ;; result <~ r ;; pos <~ rget_pos ;;
         if chk start_pos pos then rassert (start_pos <=? pos)%nat ;~ rerr EInconsistentLength
         else rret (f result)).
Proof.
  intros Hr b W. unfold rbind, rget_pos. rewrite get_pos_ok by assumption. cbn [bind fst snd].
  specialize (Hr b W). destruct (r b) as [[x b1]| |]; cbn [bind fst snd]; try exact Hr.
  destruct Hr as (n & -> & Hn). pose proof (wf_adv _ _ W Hn) as W1. rewrite get_pos_ok by assumption. cbn [bind fst snd].
  destruct (chk _ _).
  - unfold adv. cbn [set_pos bpos bstart]. destruct (Nat.leb_spec (bpos b - bstart b) (bpos b + n - bstart b)); [exact I|lia].
  - exists n. auto.
Qed.

Lemma rsafe_type3_struct {T} obit id (r : reader T) : rsafe r -> rsafe (parse_type3_struct obit id r).
Proof.
  intros Hr. unfold parse_type3_struct. apply rsafe_if; [apply rsafe_ret|].
  apply rsafe_after_peek; [apply rsafe_ret|].
  apply rsafe_bind; [apply rsafe_field; lia|]. intros len_n.
  apply (rsafe_between r (fun s p => negb (s + N.to_nat len_n =? p)%nat) (@Some T) Hr).
Qed.

Lemma rsafe_elems {T} n (r : reader T) : rsafe r -> rsafe (parse_elems n r).
Proof.
  intros H. induction n; cbn [parse_elems]; [apply rsafe_ret|].
  apply rsafe_bind; [assumption|]. intros x. apply rsafe_bind; [assumption|]. intros; apply rsafe_ret.
Qed.
