(** Signalling sent by stealing half a traffic slot: proofs. *)
From Coq Require Import Arith.
From Verif Require Import Base BitsLib BitBuffer BitBufferProofs BitBufferOps Codec CodecProofs TypedFields MacFields MacPdus Layout LayoutProofs
  MacSpec MacPdusProofs FillBits BsFrag FragSpec FillProofs FragProofs TxReceipt TdmaTime TdmaTimeProofs UmacCircuits UmacCircuitsProofs LlcBits
  DlSched DlSchedSpec DlChunk DlBuild DlNotes DlSlot DlFinal UmacBs StealSpec.
Open Scope nat_scope.

Lemma strip_zeros l k : strip (l ++ repeat false k) = strip l.
Proof. unfold strip. rewrite rev_app_distr, rev_repeat, drop_pad_zeros. reflexivity. Qed.
Lemma drop_pad_len l : length (drop_pad l) <= length l.
Proof. induction l as [|x l IH]; [cbn; lia|]. destruct x; cbn [drop_pad length]; lia. Qed.
Lemma strip_less l : l <> [] -> length (strip l) < length l.
Proof.
  intros N0. unfold strip. rewrite rev_length, <- (rev_length l). destruct (rev l) as [|x t] eqn:E.
  { apply (f_equal (@rev bool)) in E. rewrite rev_involutive in E. contradiction. }
  pose proof (drop_pad_len t). destruct x; cbn [drop_pad length]; lia.
Qed.
Lemma bit_at_zeros n i : bit_at (repeat 0%N n) i = false.
Proof. unfold bit_at. rewrite (nth_repeat 0%N n (i / 8)). apply N.bits_0. Qed.
Lemma new_rest n b w : wrote (bb_new n) b w -> length w <= n -> remaining b = repeat false (n - length w).
Proof.
  intros O L. destruct (new_wrote _ _ _ O L) as (W & _ & _ & LR). pose proof O as (_ & _ & _ & P & _ & B & _).
  apply nth_ext with (d := false) (d' := false). { rewrite LR, repeat_length. reflexivity. }
  intros i Hi. rewrite LR in Hi. rewrite nth_repeat. unfold remaining. rewrite nth_bits_rng by (unfold remaining in LR; rewrite bits_rng_length in LR; lia).
  rewrite B. cbn [bb_new bpos bytes] in *. rewrite P. destruct (Nat.ltb_spec (0 + length w + i) (0 + length w)); [lia|]. rewrite andb_false_r. apply bit_at_zeros.
Qed.
Lemma zeros_null : forallb (fun k => match parse mr_read (repeat false k) with Some (p, _) => mr_is_null p | None => false end) (seq 16 109) = true.
Proof. vm_compute. reflexivity. Qed.
Lemma items_zeros j k : k <= half_slot -> items false j (repeat false k) = Some [].
Proof.
  unfold half_slot. intros B. destruct (Nat.ltb_spec k 16) as [H|H]; [apply items_short; rewrite repeat_length; exact H|].
  destruct j; [reflexivity|]. rewrite items_eq, repeat_length. destruct (Nat.ltb_spec k 16); [lia|].
  pose proof (proj1 (forallb_forall _ _) zeros_null k) as Z. cbv beta in Z. rewrite in_seq in Z. specialize (Z ltac:(lia)).
  destruct k as [|[|k]]; [lia|lia|]. cbn [repeat] in *. destruct (parse mr_read (false :: false :: repeat false k)) as [[p h]|]; [|discriminate]. rewrite Z. reflexivity.
Qed.

(** Running out of room *)
Lemma copy_full fuel n src b : wf src -> wf b -> n <= length (remaining src) -> autoexp b = false -> length (remaining b) < n -> copy_bits_loop fuel n b src = Panic.
Proof.
  revert n src b. induction fuel as [|f IH]; intros n src b Ws Wb Hn A H; cbn [copy_bits_loop]; (destruct (Nat.eqb_spec n 0) as [->|Hz]; [lia|]); [reflexivity|].
  rewrite len_rem by assumption. cbn [bind]. set (k := Nat.min n 64).
  destruct (Nat.leb_spec k (length (remaining src))); [|lia]. cbn [assert bind].
  rewrite read_bits_opt_spec by (assumption || lia). destruct (Nat.leb_spec k (length (remaining src))); [|lia]. cbn [bind unwrap].
  assert (HL : length (firstn k (remaining src)) = k) by (rewrite firstn_length; lia).
  destruct (Nat.leb_spec k (length (remaining b))) as [HB|HB].
  - destruct (write_bits_spec b (bits_val (firstn k (remaining src))) k) as (b1 & E1 & O1 & _); [assumption|lia|rewrite <- HL at 2; apply bits_val_bound|apply room_fixed; assumption|].
    rewrite E1. cbn [bind]. apply IH.
    + apply wf_adv; [assumption|lia].
    + apply O1.
    + rewrite remaining_adv, skipn_length by assumption. lia.
    + destruct O1 as (_ & _ & -> & _). exact A.
    + rewrite (wrote_rem_len _ _ _ Wb O1) by (rewrite bits_of_length; lia). rewrite bits_of_length. lia.
  - assert (E : write_bits (bits_val (firstn k (remaining src))) k b = Panic).
    { unfold write_bits. destruct (Nat.leb_spec k 64); [|lia]. cbn [assert bind].
      assert (V : ((k =? 64) || (shr (bits_val (firstn k (remaining src))) k =? 0)%N) = true).
      { apply orb_true_iff. right. apply N.eqb_eq. unfold shr. rewrite N.shiftr_div_pow2. apply N.div_small. rewrite <- HL at 2. apply bits_val_bound. }
      rewrite V. cbn [assert bind]. unfold remaining in HB. rewrite bits_rng_length in HB.
      destruct Wb as (_ & WB2 & _). destruct (Nat.ltb_spec (bend b) (bpos b + k)); [|lia]. rewrite A. reflexivity. }
    rewrite E. reflexivity.
Qed.

(** A length indication that does not fit *)
Lemma then_panic w1 w2 L b : writes w1 L -> wf b -> length L <= length (remaining b) ->
  (forall b', wf b' -> w2 b' = Panic) -> wthen w1 w2 b = Panic.
Proof.
  intros H W L1 P. destruct (H b W) as (b1 & E1 & O1); [apply room_fixed; assumption|]. unfold wthen. rewrite E1. cbn [bind]. apply P, O1.
Qed.
Lemma big_field v n b : n < 64 -> (2 ^ N.of_nat n <= v)%N -> write_bits v n b = Panic.
Proof.
  intros L H. unfold write_bits. destruct (Nat.leb_spec n 64); [|lia]. cbn [assert bind].
  destruct (Nat.eqb_spec n 64); [lia|]. destruct (N.eqb_spec (shr v n) 0) as [E|E]; [|reflexivity].
  unfold shr in E. rewrite N.shiftr_div_pow2 in E. assert (2 ^ N.of_nat n <> 0)%N by (apply N.pow_nonzero; lia). apply N.div_small_iff in E; [lia|assumption].
Qed.
Lemma mr_write_len p b :
  (mr_len p = 0%N -> mr_write p b = Panic) /\
  ((64 <= mr_len p)%N -> wf b -> 7 <= length (remaining b) -> (mr_pog p < 2)%N -> (mr_encmode p < 4)%N -> mr_write p b = Panic).
Proof.
  split.
  - intros E. unfold mr_write. rewrite E. reflexivity.
  - intros H W L P1 P2. unfold mr_write. destruct (N.ltb_spec 0 (mr_len p)); [|lia]. cbn [wassert].
    assert (HS : writes (wret >> wfield 0 2 >> wflag (mr_fill p) >> wfield (mr_pog p) 1 >> wfield (mr_encmode p) 2 >> wflag (mr_raf p))
      ([] ++ bits_of 2 0 ++ bits_of 1 (N.b2n (mr_fill p)) ++ bits_of 1 (mr_pog p) ++ bits_of 2 (mr_encmode p) ++ bits_of 1 (N.b2n (mr_raf p)))).
    { repeat apply writes_seq; try (apply writes_bits; [lia|]); try exact P1; try exact P2; try reflexivity; try (destruct (mr_fill p); reflexivity); try (destruct (mr_raf p); reflexivity).
      intros b0 W0 _. exists b0. split; [reflexivity|]. now apply wrote_nil. }
    set (X := wfield (mr_len p) 6 >> _) in *.
    assert (EQ : forall w, (wret >> wfield 0 2 >> wflag (mr_fill p) >> wfield (mr_pog p) 1 >> wfield (mr_encmode p) 2 >> wflag (mr_raf p) >> w) b =
      ((wret >> wfield 0 2 >> wflag (mr_fill p) >> wfield (mr_pog p) 1 >> wfield (mr_encmode p) 2 >> wflag (mr_raf p)) >> w) b).
    { intros w. unfold wthen, wret. cbn [bind]. repeat (match goal with |- bind ?x _ = bind (bind ?x _) _ => destruct x; cbn [bind]; try reflexivity end). }
    rewrite EQ. eapply then_panic; [exact HS|assumption|cbn [app length]; rewrite ?app_length, ?bits_of_length; cbn [length]; lia|].
    intros b' W'. unfold X, wthen, wfield. rewrite big_field; [reflexivity|lia|exact H].
Qed.
(** * The block *)
Lemma steal_width raf r : width (mr_layout (steal_header raf r)) = width (mr_layout (steal_header false r)).
Proof. reflexivity. Qed.
Lemma steal_bound r : width (mr_layout (steal_header false r)) = match steal_usage r with Some _ => 49 | None => 43 end.
Proof. unfold steal_header, mr_layout, mr_is_null. cbn [mr_addr mr_el mr_um mr_pc mr_sg mr_ca is_none andb]. unfold mr_addr_layout. cbn [mr_addr mr_el mr_um]. destruct (steal_usage r); reflexivity. Qed.
Lemma sendable_raf raf r : sendable (steal_header false r) -> sendable (steal_header raf r).
Proof.
  intros (V & _). split; [|reflexivity]. destruct raf; [|exact V]. unfold mr_valid in *. cbn [mr_pog mr_encmode mr_raf mr_addr mr_el mr_um mr_pc mr_sg mr_ca steal_header] in *.
  splitb. rewrite !andb_true_iff. repeat split; assumption.
Qed.
Lemma win_len b : wf b -> get_len b = Ok (length (window b)).
Proof. intros (A & B & _). unfold get_len, sub_checked, window. rewrite bits_rng_length. destruct (Nat.leb_spec (bstart b) (bend b)); [reflexivity|lia]. Qed.
(** Octets and what is missing to the last one *)
Definition octets (r : tma_req) : nat := (steal_size r + 7) / 8.
Definition the_pdu (raf : bool) (r : tma_req) : mac_resource := mr_set_len (steal_header raf r) (N.of_nat (octets r)) (negb (steal_size r mod 8 =? 0)).
Lemma stch_spec raf r : steal_ok r ->
  (half_slot < steal_size r -> stch_block raf r = Panic) /\
  (steal_size r <= half_slot -> exists b, stch_block raf r = Ok b /\ wf b /\
     window b = enc (mr_layout (the_pdu raf r)) ++ window (tr_sdu r) ++ repeat false (half_slot - steal_size r)).
Proof.
  intros (W & S0). pose proof (sendable_raf raf r S0) as S. unfold half_slot.
  set (h := width (mr_layout (steal_header false r))). set (n := length (window (tr_sdu r))).
  assert (HS : steal_size r = h + n) by reflexivity. assert (HB : h <= 49) by (unfold h; rewrite steal_bound; destruct (steal_usage r); lia).
  assert (UB : mr_update_len_and_fill_ind (steal_header raf r) n =
    Ok ((8 - (h + n) mod 8) mod 8, mr_set_len (steal_header raf r) (to_u8 (N.of_nat ((h + n + 7) / 8))) (negb ((8 - (h + n) mod 8) mod 8 =? 0)))).
  { unfold mr_update_len_and_fill_ind. rewrite (sendable_len _ S), steal_width. fold h. cbn [bind]. reflexivity. }
  assert (FE : negb ((8 - (h + n) mod 8) mod 8 =? 0) = negb ((h + n) mod 8 =? 0)).
  { pose proof (Nat.mod_upper_bound (h + n) 8 ltac:(lia)). destruct (Nat.eqb_spec ((h + n) mod 8) 0) as [E|E].
    - rewrite E. reflexivity.
    - destruct ((h + n) mod 8) as [|m]; [lia|]. do 7 (destruct m as [|m]; [reflexivity|]). lia. }
  destruct (seek0 _ W) as (sdu & ES & WS & _ & RS).
  assert (LN : length (remaining (bb_new 124)) = 124) by (unfold remaining; rewrite bits_rng_length; reflexivity).
  assert (NS : n <= length (remaining sdu)) by (rewrite RS; unfold n; lia).
  unfold stch_block. rewrite (win_len _ W). cbn [bind]. fold n. change (mk_mres false 0 0 raf 0 (Some (tr_addr r)) None _ None None None) with (steal_header raf r).
  rewrite UB, FE. cbn [bind]. set (p := mr_set_len _ _ _).
  destruct (Nat.leb_spec (h + n) 124) as [HL|HL].
  - split; [lia|]. intros _.
    assert (PE : p = the_pdu raf r). { unfold p, the_pdu, octets. rewrite HS. f_equal. apply to_u8_small. assert ((h + n + 7) / 8 < 32); [|lia]. apply Nat.div_lt_upper_bound; lia. }
    assert (H16 : 16 <= h) by (unfold h; apply mr_width_min).
    assert (O1 : 2 <= octets r) by (unfold octets; rewrite HS; change 2 with (16 / 8); apply Nat.div_le_mono; lia).
    assert (O2 : octets r < 32) by (unfold octets; rewrite HS; apply Nat.div_lt_upper_bound; lia).
    assert (V : mr_valid p = true) by (rewrite PE; apply sendable_valid; [assumption|lia|lia]).
    assert (LE : length (enc (mr_layout p)) = h) by (rewrite enc_length, PE; unfold the_pdu; rewrite set_len_width; reflexivity).
    destruct (emit (mr_write p) (enc (mr_layout p)) n 0 sdu (bb_new STCH_CAP) (proj1 (mr_carries p V)) WS (wf_new _) NS) as (b1 & b2 & b3 & E1 & E2 & _ & O & _).
    { unfold STCH_CAP. rewrite LN. lia. }
    rewrite E1. cbn [bind]. rewrite ES. cbn [bind]. rewrite E2. cbn [bind]. exists b2. split; [reflexivity|].
    rewrite RS in O. unfold n in O at 1. rewrite firstn_all in O.
    assert (LW : length (enc (mr_layout p) ++ window (tr_sdu r)) = h + n) by (rewrite app_length, LE; reflexivity).
    destruct (new_wrote _ _ _ O) as (WB & WR & _ & _); [rewrite LW; exact HL|]. split; [assumption|].
    rewrite window_split, WR, (new_rest _ _ _ O) by (assumption || (rewrite LW; exact HL)). rewrite LW, <- app_assoc, HS, PE. reflexivity.
  - split; [|lia]. intros _.
    destruct (N.eq_dec (mr_len p) 0) as [Z0|Z0].
    { rewrite (proj1 (mr_write_len p _) Z0). reflexivity. }
    destruct (N.ltb_spec (mr_len p) 64) as [Z1|Z1].
    + assert (V : mr_valid p = true) by (apply sendable_valid; [assumption|exact (proj1 (N.neq_0_lt_0 _) Z0)|exact Z1]).
      assert (LE : length (enc (mr_layout p)) = h) by (rewrite enc_length; unfold p; rewrite set_len_width; reflexivity).
      destruct (proj1 (mr_carries p V) (bb_new STCH_CAP) (wf_new _)) as (b1 & E1 & O1); [apply room_fixed; [unfold STCH_CAP; rewrite LN, LE; lia|apply wf_new]|].
      rewrite E1. cbn [bind]. rewrite ES. cbn [bind]. unfold copy_bits. rewrite copy_full; [reflexivity|assumption|apply O1|assumption| |].
      * destruct O1 as (_ & _ & -> & _). reflexivity.
      * rewrite (wrote_rem_len _ _ _ (wf_new _) O1) by (unfold STCH_CAP; rewrite LN, LE; lia). unfold STCH_CAP. rewrite LN, LE. lia.
    + rewrite (proj2 (mr_write_len p _) Z1); [reflexivity|apply wf_new|unfold STCH_CAP; rewrite LN; lia|reflexivity|reflexivity].
Qed.

Lemma the_pdu_valid raf r : steal_ok r -> steal_size r <= half_slot ->
  mr_valid (the_pdu raf r) = true /\ 2 <= octets r < 32 /\ length (enc (mr_layout (the_pdu raf r))) = width (mr_layout (steal_header false r)).
Proof.
  unfold half_slot. intros (W & S0) L. assert (H16 : 16 <= steal_size r) by (unfold steal_size; pose proof (mr_width_min (steal_header false r)); lia).
  assert (O1 : 2 <= octets r) by (unfold octets; change 2 with (16 / 8); apply Nat.div_le_mono; lia).
  assert (O2 : octets r < 32) by (unfold octets; apply Nat.div_lt_upper_bound; lia).
  split; [apply sendable_valid; [now apply sendable_raf|lia|lia]|]. split; [lia|]. rewrite enc_length. unfold the_pdu. rewrite set_len_width. reflexivity.
Qed.
(** Whole octets *)
Lemma steal_exact raf r b : steal_ok r -> steal_size r <= half_slot -> steal_size r mod 8 = 0 -> stch_block raf r = Ok b ->
  slot_items_lenient (window b) = Some [IWhole (header (steal_header raf r)) (window (tr_sdu r))].
Proof.
  intros OK L M E. destruct (stch_spec raf r OK) as (_ & H). destruct (H L) as (b' & E' & _ & EW). assert (b' = b) as -> by congruence.
  destruct (the_pdu_valid raf r OK L) as (V & O & LE).
  assert (LW : length (window b) = 124). { rewrite EW, !app_length, LE, repeat_length. unfold half_slot, steal_size in *. lia. }
  unfold slot_items_lenient. rewrite LW.
  replace (window b) with ((enc (mr_layout (the_pdu raf r)) ++ window (tr_sdu r) ++ pad 0) ++ repeat false (half_slot - steal_size r)) by (cbn [pad]; rewrite app_nil_r, EW, <- app_assoc; reflexivity).
  rewrite (items_whole false 123 (the_pdu raf r) (window (tr_sdu r)) 0).
  - rewrite items_zeros by lia. reflexivity.
  - assumption.
  - reflexivity.
  - cbn [the_pdu mr_set_len mr_len]. lia.
  - cbn [the_pdu mr_set_len mr_fill]. rewrite M. reflexivity.
  - rewrite LE. cbn [the_pdu mr_set_len mr_len]. unfold octets. rewrite Nat.add_0_r. fold (steal_size r).
    assert (D : steal_size r = 8 * (steal_size r / 8)) by (pose proof (Nat.div_mod (steal_size r) 8 ltac:(lia)); lia).
    assert (Q : (steal_size r + 7) / 8 = steal_size r / 8) by (rewrite D at 1; rewrite (Nat.mul_comm 8), Nat.div_add_l by lia; change (7 / 8) with 0; lia).
    rewrite Q. lia.
Qed.
(** A last octet that is not complete *)
Lemma steal_other raf r b : steal_ok r -> steal_size r <= half_slot -> steal_size r mod 8 <> 0 -> stch_block raf r = Ok b ->
  slot_items_lenient (window b) = if steal_size r <=? 120 then Some [IWhole (header (steal_header raf r)) (strip (window (tr_sdu r)))] else None.
Proof.
  intros OK L M E. destruct (stch_spec raf r OK) as (_ & H). destruct (H L) as (b' & E' & _ & EW). assert (b' = b) as -> by congruence.
  destruct (the_pdu_valid raf r OK L) as (V & O & LE).
  assert (LW : length (window b) = 124). { rewrite EW, !app_length, LE, repeat_length. unfold half_slot, steal_size in *. lia. }
  unfold slot_items_lenient. rewrite LW, EW, items_resource by (assumption || reflexivity). cbv zeta. rewrite LE, <- EW.
  change (mr_fill (the_pdu raf r)) with (negb (steal_size r mod 8 =? 0)). change (mr_len (the_pdu raf r)) with (N.of_nat (octets r)).
  destruct (N.eqb_spec (N.of_nat (octets r)) 63); [lia|]. replace (N.to_nat (8 * N.of_nat (octets r))) with (8 * octets r) by lia.
  destruct (Nat.eqb_spec (steal_size r mod 8) 0) as [|_]; [contradiction|]. cbn [negb].
  pose proof (Nat.div_mod (steal_size r) 8 ltac:(lia)) as D. pose proof (Nat.mod_upper_bound (steal_size r) 8 ltac:(lia)) as U.
  assert (Q : octets r = S (steal_size r / 8)).
  { unfold octets. symmetry. apply (Nat.div_unique _ _ _ (steal_size r mod 8 - 1)); lia. }
  unfold body. rewrite LW. unfold half_slot in *. destruct (Nat.leb_spec (steal_size r) 120) as [L1|L1].
  - assert (L2 : 8 * octets r <= 120) by lia. destruct (Nat.leb_spec (8 * octets r) 124); [|lia]. cbv zeta.
    set (h := width (mr_layout (steal_header false r))) in *. assert (HS : steal_size r = h + length (window (tr_sdu r))) by reflexivity.
    assert (EB : skipn h (firstn (8 * octets r) (window b)) = window (tr_sdu r) ++ repeat false (8 * octets r - steal_size r)).
    { rewrite EW. replace (8 * octets r) with (length (enc (mr_layout (the_pdu raf r))) + (length (window (tr_sdu r)) + (8 * octets r - steal_size r))) at 1 by lia.
      rewrite firstn_app_2, skipn_app, <- LE, skipn_all, Nat.sub_diag. cbn [app skipn]. rewrite firstn_app_2. f_equal.
      replace (124 - steal_size r) with ((8 * octets r - steal_size r) + (124 - 8 * octets r)) by lia. rewrite repeat_app, firstn_app, repeat_length, Nat.sub_diag. cbn [firstn]. rewrite app_nil_r.
      apply firstn_all2. rewrite repeat_length. lia. }
    rewrite EB, strip_zeros.
    assert (ET : skipn (8 * octets r) (window b) = repeat false (124 - 8 * octets r)).
    { rewrite EW, app_assoc, skipn_app, skipn_all2 by (rewrite app_length; lia). cbn [app]. rewrite app_length, LE.
      replace (124 - steal_size r) with ((8 * octets r - (h + length (window (tr_sdu r)))) + (124 - 8 * octets r)) by lia.
      rewrite repeat_app, skipn_app, skipn_all2 by (rewrite repeat_length; lia). rewrite repeat_length, Nat.sub_diag. reflexivity. }
    rewrite ET, items_zeros by (unfold half_slot; lia). reflexivity.
  - assert (15 <= steal_size r / 8) by (apply Nat.div_le_lower_bound; lia).
    destruct (Nat.leb_spec (8 * octets r) 124); [lia|]. reflexivity.
Qed.
