(** Downlink fragmentation: proofs. *)
From Coq Require Import Arith.
From Verif Require Import Base BitsLib BitBuffer BitBufferProofs BitBufferOps Codec CodecProofs TypedFields MacFields MacPdus Layout LayoutProofs
  MacSpec MacPdusProofs FillBits BsFrag FragSpec FillProofs TxReceipt.
Open Scope N_scope.

(** Parsing a slot that starts with a header. *)
Lemma parse_reads {A} (r : reader A) l x rest : reads r l x -> parse r (l ++ rest) = Some (x, length l).
Proof.
  intros H. unfold parse. destruct (from_bitstr_spec (l ++ rest)) as (b & E & W & P & _ & EW). rewrite E.
  assert (R : remaining b = l ++ rest) by (unfold remaining; rewrite P; exact EW).
  rewrite (H b rest W R). unfold adv, set_pos. cbn [bpos]. do 2 f_equal. lia.
Qed.
Lemma body_whole fill (hdr s p rest : list bool) k ext :
  length hdr = length p -> fill = (0 <? k)%nat -> ext = (length p + length s + k)%nat ->
  body fill (length p) ext (p ++ s ++ pad k ++ rest) = Some s.
Proof.
  intros _ -> ->. unfold body. rewrite !app_length, pad_length. destruct (Nat.leb_spec (length p + length s + k) (length p + (length s + (k + length rest)))); [|lia].
  f_equal.
  assert (E : skipn (length p) (firstn (length p + length s + k) (p ++ s ++ pad k ++ rest)) = s ++ pad k).
  { replace (length p + length s + k)%nat with (length p + (length s + k))%nat by lia. rewrite firstn_app_2, skipn_app, skipn_all, Nat.sub_diag. cbn [app skipn].
    rewrite app_assoc, firstn_app, app_length, pad_length, Nat.sub_diag. cbn [firstn]. rewrite app_nil_r. apply firstn_all2. rewrite app_length, pad_length. lia. }
  cbv zeta. rewrite E. destruct (Nat.ltb_spec 0 k) as [H1|H1]; [now apply strip_pad|]. assert (k = 0)%nat as -> by lia. cbn [pad]. now rewrite app_nil_r.
Qed.

(** Header facts *)
Lemma set_len_null p l f : mr_is_null (mr_set_len p l f) = mr_is_null p.
Proof. reflexivity. Qed.
Lemma set_len_width p l f : width (mr_layout (mr_set_len p l f)) = width (mr_layout p).
Proof. unfold mr_layout. rewrite set_len_null. rewrite !width_app. reflexivity. Qed.
Lemma set_len_addr_layout p l f : mr_addr_layout (mr_set_len p l f) = mr_addr_layout p.
Proof. reflexivity. Qed.
Lemma set_len_valid p l f : mr_valid p = true -> 0 < l -> l < 64 -> (mr_is_null p = true -> f = false) -> mr_valid (mr_set_len p l f) = true.
Proof.
  intros V L1 L2 F. unfold mr_valid in *. splitb. rewrite !andb_true_iff. repeat split; try assumption.
  - match goal with X : fits _ = true |- _ => rename X into H end. clear - H L2. unfold mr_layout in *. rewrite set_len_null, set_len_addr_layout. rewrite fits_app in *. apply andb_prop in H. destruct H as (Ha & Hb).
    apply andb_true_intro. split; [|exact Hb]. unfold fits in *. cbn [forallb fst snd fl mr_set_len mr_fill mr_pog mr_encmode mr_raf mr_len] in *.
    splitb. rewrite !andb_true_iff. change (2 ^ N.of_nat 6) with 64. repeat split; try assumption; try (destruct f; reflexivity); try (now apply N.ltb_lt).
  - cbn [mr_len mr_set_len]. now apply N.ltb_lt.
  - unfold mr_addr_valid, mr_is_null in *. cbn [mr_set_len mr_addr mr_el mr_um mr_fill mr_pog mr_encmode mr_raf mr_pc mr_sg mr_ca] in *.
    destruct (mr_addr p), (mr_el p), (mr_um p); try assumption. cbn [is_none andb] in F. rewrite (F eq_refl). splitb.
    rewrite !andb_true_iff. repeat split; assumption.
Qed.
Lemma mr_width_min p : (16 <= width (mr_layout p))%nat.
Proof.
  unfold mr_layout. rewrite !width_app. cbn [width map snd list_sum fold_right fl].
  assert (3 <= width (mr_addr_layout p))%nat; [|unfold width in *; cbn; lia]. unfold mr_addr_layout, width. destruct (mr_addr p) as [a|], (mr_el p), (mr_um p); cbn; lia.
Qed.
Lemma mr_null_width p : mr_valid p = true -> mr_is_null p = true -> width (mr_layout p) = 16%nat.
Proof.
  intros _ H. unfold mr_layout. rewrite H. unfold mr_is_null in H. unfold mr_addr_layout. destruct (mr_addr p), (mr_el p), (mr_um p); try discriminate. reflexivity.
Qed.

(** State invariant while the fragger is in use. *)
Definition fg_inv (f : fragger) : Prop :=
  fg_done f = false /\ wf (fg_sdu f) /\ mr_valid (fg_res f) = true /\ pending (fg_rep f) /\
  (fg_hdr f = false -> bpos (fg_sdu f) = bstart (fg_sdu f)) /\
  (mr_is_null (fg_res f) = true -> remaining (fg_sdu f) = []).
Definition hdr_bits (f : fragger) : nat := width (mr_layout (fg_res f)).

Lemma len_rem b : wf b -> get_len_remaining b = Ok (length (remaining b)).
Proof. intros (H1 & H2 & _). unfold get_len_remaining, sub_checked, remaining. rewrite bits_rng_length. destruct (Nat.leb_spec (bpos b) (bend b)); [reflexivity|lia]. Qed.
Lemma pos_ok b : wf b -> get_pos b = Ok (bpos b - bstart b)%nat.
Proof. intros (H1 & _). unfold get_pos, sub_checked. destruct (Nat.leb_spec (bstart b) (bpos b)); [reflexivity|lia]. Qed.
Lemma room_fixed b n : (n <= length (remaining b))%nat -> wf b -> room b n.
Proof. intros H (_ & H2 & _). right. unfold remaining in H. rewrite bits_rng_length in H. lia. Qed.
Lemma wrote_rem_len b b' l : wf b -> wrote b b' l -> (length l <= length (remaining b))%nat -> length (remaining b') = (length (remaining b) - length l)%nat.
Proof.
  intros W (W1 & S1 & A1 & P1 & L1 & B1 & E1 & F1 & T1) H. unfold remaining in *. rewrite !bits_rng_length in *. destruct F1 as [F1 _]; [destruct W as (? & ? & _); lia|]. lia.
Qed.

(** Header, SDU bits and padding written one after the other. *)
Lemma emit w L n k src blk :
  writes w L -> wf src -> wf blk -> (n <= length (remaining src))%nat -> (length L + n + k <= length (remaining blk))%nat ->
  exists b1 b2 b3, w blk = Ok b1 /\ copy_bits n src b1 = Ok (b2, adv src n) /\ fill_write (Some k) b2 = Ok b3 /\
  wrote blk b2 (L ++ firstn n (remaining src)) /\
  wrote blk b3 (L ++ firstn n (remaining src) ++ pad k).
Proof.
  intros HW Ws Wb Hn Hc.
  destruct (HW blk Wb) as (b1 & E1 & O1); [apply room_fixed; [lia|assumption]|].
  pose proof O1 as (W1 & _).
  pose proof (wrote_rem_len _ _ _ Wb O1 ltac:(lia)) as R1.
  destruct (copy_bits_spec n src b1 Ws W1 Hn) as (b2 & E2 & O2); [apply room_fixed; [lia|assumption]|].
  pose proof O2 as (W2 & _).
  assert (LF : length (firstn n (remaining src)) = n) by (rewrite firstn_length; lia).
  pose proof (wrote_rem_len _ _ _ W1 O2 ltac:(lia)) as R2.
  destruct (fill_write_some k b2 W2) as (b3 & E3 & O3); [apply room_fixed; [rewrite pad_length; lia|assumption]|].
  exists b1, b2, b3. repeat (split; [assumption|]). pose proof (wrote_trans _ _ _ _ _ O1 O2) as O12. split; [assumption|].
  rewrite app_assoc. exact (wrote_trans _ _ _ _ _ O12 O3).
Qed.
Lemma fg_pad_eq n b : fg_pad n b = fill_write (Some n) b.
Proof. reflexivity. Qed.
Lemma to_u8_small n : (n < 256)%nat -> to_u8 (N.of_nat n) = N.of_nat n.
Proof. intros H. unfold to_u8. change 255 with (N.ones 8). rewrite N.land_ones. apply N.mod_small. change (2 ^ 8) with 256. lia. Qed.

(** What one call does. *)
Definition rx_slot (first : bool) := if first then rx_resource else rx_continuation.
Definition chunk_ok (f : fragger) (blk : bitbuf) (dn : bool) (f' : fragger) (w : list bool) : Prop :=
  (w = [] /\ dn = false /\ fg_sdu f' = fg_sdu f /\ fg_hdr f' = fg_hdr f /\
     (fg_hdr f = false -> (length (remaining blk) < Nat.max 32 (hdr_bits f))%nat) /\ (fg_hdr f = true -> (length (remaining blk) < 16)%nat)) \/
  (w <> [] /\ fg_hdr f' = true /\ (length w <= length (remaining blk))%nat /\
   ((length w mod 8 = 0)%nat \/ length w = length (remaining blk)) /\
   exists d, remaining (fg_sdu f) = d ++ remaining (fg_sdu f') /\ (dn = true -> remaining (fg_sdu f') = []) /\
     (dn = false -> fg_hdr f = true -> (12 <= length d)%nat \/ (remaining (fg_sdu f') = [] /\ remaining (fg_sdu f) <> [])) /\
     forall tail, length (w ++ tail) = length (remaining blk) -> rx_slot (negb (fg_hdr f)) (w ++ tail) = Some (d, negb dn)).

Lemma adv_firstn src n : wf src -> (n <= length (remaining src))%nat -> remaining src = firstn n (remaining src) ++ remaining (adv src n).
Proof. intros W H. rewrite remaining_adv by assumption. symmetry. apply firstn_skipn. Qed.

Lemma rx_resource_whole p s k tail :
  mr_valid p = true -> mr_len p < 63 -> mr_fill p = (0 <? k)%nat -> N.to_nat (8 * mr_len p) = (length (enc (mr_layout p)) + length s + k)%nat ->
  rx_resource ((enc (mr_layout p) ++ s ++ pad k) ++ tail) = Some (s, false).
Proof.
  intros V L F E. unfold rx_resource. rewrite <- !app_assoc.
  rewrite (parse_reads mr_read (enc (mr_layout p)) (mr_on_air p) (s ++ pad k ++ tail)) by exact (proj2 (mr_carries p V)).
  assert (EL : mr_len (mr_on_air p) = mr_len p) by (destruct p; reflexivity).
  assert (EF : mr_fill (mr_on_air p) = mr_fill p) by (destruct p; reflexivity).
  rewrite EL, EF. destruct (N.eqb_spec (mr_len p) 63); [lia|]. cbv zeta iota. rewrite (body_whole _ (enc (mr_layout p)) s _ tail k); auto.
Qed.
Lemma rx_resource_start p s tail cap :
  mr_valid p = true -> mr_len p = 63 -> mr_fill p = false -> (length (enc (mr_layout p)) + length s = cap)%nat -> length tail = 0%nat ->
  rx_resource ((enc (mr_layout p) ++ s ++ pad 0) ++ tail) = Some (s, true).
Proof.
  intros V L F E T. destruct tail; [|discriminate]. unfold rx_resource. rewrite <- !app_assoc.
  rewrite (parse_reads mr_read (enc (mr_layout p)) (mr_on_air p)) by exact (proj2 (mr_carries p V)).
  assert (EL : mr_len (mr_on_air p) = mr_len p) by (destruct p; reflexivity).
  assert (EF : mr_fill (mr_on_air p) = mr_fill p) by (destruct p; reflexivity).
  rewrite EL, EF, L, F. change (63 =? 63) with true. cbv zeta iota.
  rewrite (body_whole false (enc (mr_layout p)) s _ [] 0); auto. rewrite !app_length. cbn [pad length]. lia.
Qed.
Lemma rx_cont_frag k s tail : (length tail = 0)%nat ->
  rx_continuation ((enc (mfrag_layout (0 <? k)%nat) ++ s ++ pad k) ++ tail) = Some (s, true).
Proof.
  intros T. destruct tail; [|discriminate]. unfold rx_continuation. rewrite <- !app_assoc.
  assert (E2 : nth_error (enc (mfrag_layout (0 <? k)%nat) ++ s ++ pad k ++ []) 2 = Some false) by (destruct (0 <? k)%nat; reflexivity).
  rewrite E2. rewrite (parse_reads mfrag_read _ (0 <? k)%nat) by exact (proj2 (mfrag_carries _)).
  rewrite (body_whole _ (enc (mfrag_layout (0 <? k)%nat)) s _ [] k); auto. rewrite !app_length, pad_length. cbn [length]. lia.
Qed.
Lemma rx_cont_end p s k tail :
  mend_valid p = true -> me_fill p = (0 <? k)%nat -> N.to_nat (8 * me_len p) = (length (enc (mend_layout p)) + length s + k)%nat ->
  rx_continuation ((enc (mend_layout p) ++ s ++ pad k) ++ tail) = Some (s, false).
Proof.
  intros V F E. unfold rx_continuation. rewrite <- !app_assoc.
  assert (E2 : nth_error (enc (mend_layout p) ++ s ++ pad k ++ tail) 2 = Some true) by reflexivity.
  rewrite E2. rewrite (parse_reads mend_read _ p) by exact (proj2 (mend_carries p V)).
  rewrite (body_whole _ (enc (mend_layout p)) s _ tail k); auto.
Qed.

Lemma next_chunk_spec f blk :
  fg_inv f -> block_ok blk ->
  (fg_hdr f = false -> whole_octets (hdr_bits f) (length (remaining (fg_sdu f))) (length (remaining blk))) ->
  exists dn f' blk' w, fg_next_chunk f blk = Ok (dn, f', blk') /\ wrote blk blk' w /\ fg_done f' = dn /\ (dn = false -> fg_inv f') /\
    hdr_bits f' = hdr_bits f /\
    (dn = true -> match fg_rep f, fg_rep f' with Some t, Some t' => tx_byte t' = tx_raw TxTransmitted | None, None => True | _, _ => False end) /\
    chunk_ok f blk dn f' w.
Proof.
  intros (Id & Iw & Iv & Ip & Ih & In_) (Bw & Ba & Bc & Bal) WO.
  unfold fg_next_chunk. rewrite Id. cbn [negb assert bind]. rewrite pos_ok, len_rem by assumption. cbn [bind].
  assert (HA : ((bpos blk - bstart blk) mod 8 =? 0)%nat || (length (remaining blk) =? 0)%nat = true).
  { apply orb_true_iff. destruct Bal as [B|B]; [left|right]; now apply Nat.eqb_eq. }
  rewrite HA. cbn [assert bind]. set (cap := length (remaining blk)) in *. set (sl := length (remaining (fg_sdu f))) in *.
  assert (REP : forall (dn : bool) (rest : option tx_reporter -> res (bool * fragger * bitbuf)),
    exists rep', (rep <- match fg_rep f with Some t => if dn then t <- tx_mark_transmitted t ;; Ok (Some t) else Ok (Some t) | None => Ok None end ;; rest rep) = rest rep' /\
      (dn = false -> rep' = fg_rep f) /\
      (dn = true -> match fg_rep f, rep' with Some t, Some t' => tx_byte t' = tx_raw TxTransmitted | None, None => True | _, _ => False end)).
  { intros dn rest. destruct (fg_rep f) as [t|] eqn:ER; [|exists None; cbn; repeat split; auto].
    destruct dn; [|exists (Some t); repeat split; auto; discriminate].
    unfold tx_mark_transmitted, tx_mark. cbn [pending] in Ip. rewrite Ip, Nat.eqb_refl. cbn [bind].
    eexists. split; [reflexivity|]. split; [discriminate|]. intros _. reflexivity. }
  destruct (fg_hdr f) eqn:EH.
  - (* continuation *)
    unfold fg_frag_or_end_chunk. rewrite EH. cbn [assert bind]. rewrite !len_rem by assumption. cbn [bind]. fold sl cap.
    unfold mend_compute_hdr_len. cbn [negb assert bind].
    set (eb := (2 + 1 + 1 + 1 + 6 + 1 + 0 + 1 + sl)%nat). change (2 + 1 + 1 + 1 + 6 + 1 + 0 + 1)%nat with 13%nat in eb. fold eb.
    replace (2 + 1 + 1 + 1 + 6 + 1 + (if false then 6 else 0) + 1 + sl)%nat with eb by reflexivity.
    set (by_ := ((eb + 7) / 8)%nat).
    assert (HBY : (eb <= by_ * 8 < eb + 8)%nat) by (unfold by_; pose proof (Nat.div_mod_eq (eb + 7) 8); pose proof (Nat.mod_upper_bound (eb + 7) 8); lia).
    destruct (Nat.leb_spec (by_ * 8) cap) as [HE|HE].
    + (* MAC-END *)
      set (k := fill_required eb cap).
      assert (HK : (eb + k = by_ * 8)%nat).
      { unfold k, fill_required. destruct (Nat.leb_spec cap eb) as [H1|H1]; [lia|].
        destruct (fill_bytealigned_spec eb) as (F1 & F2 & F3).
        assert (eb + fill_bytealigned eb = by_ * 8)%nat.
        { specialize (F3 (by_ * 8 - eb)%nat). replace (eb + (by_ * 8 - eb))%nat with (by_ * 8)%nat in F3 by lia. rewrite Nat.mod_mul in F3 by lia.
          specialize (F3 eq_refl). pose proof (Nat.div_mod_eq (eb + fill_bytealigned eb) 8). lia. }
        destruct (Nat.leb_spec (eb + fill_bytealigned eb) cap); lia. }
      set (pdu := mk_mend (0 <? k)%nat 0 (to_u8 (N.of_nat by_)) None None).
      assert (HL : me_len pdu = N.of_nat by_) by (unfold pdu; cbn [me_len]; apply to_u8_small; lia).
      assert (HV : mend_valid pdu = true).
      { unfold mend_valid, mend_layout. rewrite HL. cbn [me_fill me_pog me_sg me_ca pdu optl app opt_valid fits forallb fst snd fl]. rewrite !andb_true_iff.
        change (2 ^ N.of_nat 6) with 64. repeat split; try reflexivity; try (apply N.ltb_lt; lia). destruct (0 <? k)%nat; reflexivity. }
      assert (HLen : length (enc (mend_layout pdu)) = 13%nat) by reflexivity.
      destruct (emit (mend_write pdu) (enc (mend_layout pdu)) sl k (fg_sdu f) blk (proj1 (mend_carries pdu HV)) Iw Bw) as (b1 & b2 & b3 & E1 & E2 & E3 & _ & O); [lia|unfold eb in *; fold cap; lia|].
      rewrite E1. cbn [bind]. rewrite E2. cbn [bind]. rewrite fg_pad_eq, E3. cbn [bind fg_rep fg_res fg_hdr fg_sdu].
      destruct (REP true (fun rep => Ok (true, mk_fg (fg_res f) true true (adv (fg_sdu f) sl) rep, b3))) as (rep' & ER & _ & ER2). rewrite ER.
      assert (FN : firstn sl (remaining (fg_sdu f)) = remaining (fg_sdu f)) by (apply firstn_all2; unfold sl; lia).
      exists true, (mk_fg (fg_res f) true true (adv (fg_sdu f) sl) rep'), b3, (enc (mend_layout pdu) ++ firstn sl (remaining (fg_sdu f)) ++ pad k).
      split; [reflexivity|]. split; [exact O|]. split; [reflexivity|]. split; [discriminate|]. split; [reflexivity|]. split; [exact ER2|].
      assert (LW : length (enc (mend_layout pdu) ++ firstn sl (remaining (fg_sdu f)) ++ pad k) = (by_ * 8)%nat).
      { rewrite !app_length, HLen, pad_length, FN. fold sl. unfold eb in HK. lia. }
      right. split; [intros HH; apply (f_equal (@length bool)) in HH; rewrite LW in HH; cbn [length] in HH; unfold eb in *; lia|].
      split; [reflexivity|]. rewrite LW. fold cap. split; [lia|]. split; [left; now apply Nat.mod_mul|].
      exists (firstn sl (remaining (fg_sdu f))). split; [apply adv_firstn; [assumption|unfold sl; lia]|].
      split; [intros _; cbn [fg_sdu]; rewrite remaining_adv by assumption; apply skipn_all2; unfold sl; lia|]. split; [discriminate|].
      intros tail HT. rewrite EH. cbn [negb rx_slot]. apply rx_cont_end; [assumption|reflexivity|]. rewrite HL, HLen, FN. fold sl. unfold eb in HK. lia.
    + destruct (Nat.ltb_spec cap MIN_FRAG) as [HM|HM].
      * cbn [bind fg_rep fg_res fg_hdr fg_sdu].
        destruct (REP false (fun rep => Ok (false, mk_fg (fg_res f) (fg_hdr f) false (fg_sdu f) rep, blk))) as (rep' & ER & ER1 & _). rewrite ER.
        exists false, (mk_fg (fg_res f) (fg_hdr f) false (fg_sdu f) rep'), blk, [].
        split; [reflexivity|]. split; [apply wrote_nil; assumption|]. split; [reflexivity|]. rewrite (ER1 eq_refl).
        split; [intros _; unfold fg_inv; cbn [fg_done fg_sdu fg_res fg_rep fg_hdr]; rewrite EH; split; [reflexivity|]; split; [assumption|]; split; [assumption|]; split; [assumption|]; split; [discriminate|assumption]|].
        split; [reflexivity|]. split; [discriminate|]. left. repeat (split; [reflexivity|]). rewrite EH. split; [discriminate|]. intros _. unfold MIN_FRAG in HM. fold cap. lia.
      * (* MAC-FRAG *)
        unfold MIN_FRAG in HM. set (n := Nat.min (cap - 4) sl). set (k := (cap - 4 - n)%nat).
        assert (HLen : length (enc (mfrag_layout (0 <? k)%nat)) = 4%nat) by (destruct (0 <? k)%nat; reflexivity).
        destruct (emit (mfrag_write (0 <? k)%nat) (enc (mfrag_layout (0 <? k)%nat)) n k (fg_sdu f) blk (proj1 (mfrag_carries _)) Iw Bw) as (b1 & b2 & b3 & E1 & E2 & E3 & _ & O); [unfold n, sl; lia|rewrite HLen; fold cap; unfold k, n; lia|].
        rewrite E1. cbn [bind]. rewrite E2. cbn [bind]. rewrite fg_pad_eq, E3. cbn [bind fg_rep fg_res fg_hdr fg_sdu].
        destruct (REP false (fun rep => Ok (false, mk_fg (fg_res f) true false (adv (fg_sdu f) n) rep, b3))) as (rep' & ER & ER1 & _). rewrite ER.
        exists false, (mk_fg (fg_res f) true false (adv (fg_sdu f) n) rep'), b3, (enc (mfrag_layout (0 <? k)%nat) ++ firstn n (remaining (fg_sdu f)) ++ pad k).
        split; [reflexivity|]. split; [exact O|]. split; [reflexivity|]. rewrite (ER1 eq_refl).
        assert (LW : length (enc (mfrag_layout (0 <? k)%nat) ++ firstn n (remaining (fg_sdu f)) ++ pad k) = cap).
        { rewrite !app_length, HLen, pad_length, firstn_length. fold sl. unfold k, n. lia. }
        split.
        { intros _. unfold fg_inv; cbn [fg_done fg_sdu fg_res fg_rep fg_hdr]. split; [reflexivity|]. split; [apply wf_adv; [assumption|unfold n, sl; lia]|]. split; [assumption|]. split; [assumption|].
          split; [discriminate|]. intros HN. rewrite remaining_adv by assumption. rewrite (In_ HN). now rewrite skipn_nil. }
        split; [reflexivity|]. split; [discriminate|]. right.
        split; [intros HH; apply (f_equal (@length bool)) in HH; rewrite LW in HH; cbn [length] in HH; lia|].
        split; [reflexivity|]. rewrite LW. fold cap. split; [lia|]. split; [right; reflexivity|].
        exists (firstn n (remaining (fg_sdu f))). split; [apply adv_firstn; [assumption|unfold n, sl; lia]|]. split; [discriminate|].
        split.
        { intros _ _. rewrite firstn_length. fold sl. cbn [fg_sdu]. unfold n. destruct (Nat.leb_spec (cap - 4) sl).
          - left. lia.
          - right. split; [rewrite remaining_adv by assumption; apply skipn_all2; fold sl; lia|]. intros HZ. assert (sl = 0)%nat by (unfold sl; rewrite HZ; reflexivity). unfold eb in HBY. lia. }
        intros tail HT. rewrite EH. cbn [negb rx_slot]. apply rx_cont_frag. rewrite app_length, LW in HT. fold cap in HT. lia.
  - (* first chunk *)
    specialize (Ih eq_refl). specialize (WO eq_refl).
    unfold fg_resource_chunk. rewrite pos_ok by assumption. rewrite Ih, Nat.sub_diag. cbn [bind Nat.eqb assert]. rewrite EH. cbn [negb assert bind].
    rewrite !len_rem by assumption. cbn [bind]. fold sl cap.
    assert (HNS : negb (mr_is_null (fg_res f) && (0 <? sl)%nat) = true).
    { destruct (mr_is_null (fg_res f)) eqn:EN; [|reflexivity]. unfold sl. rewrite (In_ eq_refl). reflexivity. }
    rewrite HNS. cbn [assert bind]. rewrite (mr_header_len _ Iv). cbn [bind].
    change (width (mr_layout (fg_res f))) with (hdr_bits f).
    assert (HHM : (16 <= hdr_bits f)%nat) by apply mr_width_min.
    set (h := hdr_bits f) in *.
    set (k := fill_required (h + sl) cap). destruct (fill_required_spec (h + sl) cap) as (FR1 & FR2). fold k in FR1, FR2.
    destruct (Nat.leb_spec (h + sl + k) cap) as [HF|HF].
    + (* whole PDU *)
      assert (HAs : ((h + sl + k) mod 8 =? 0)%nat || (h + sl + k =? cap)%nat = true).
      { apply orb_true_iff. destruct (FR2 ltac:(lia)) as (_ & [Q|Q] & _); [left|right]; now apply Nat.eqb_eq. }
      rewrite HAs. cbn [assert bind].
      assert (HT8 : ((h + sl + k) mod 8 = 0)%nat).
      { destruct (FR2 ltac:(lia)) as (_ & [Q|Q] & _); [assumption|]. unfold whole_octets in WO. destruct WO as [WO|WO]; [|lia].
        pose proof (Nat.div_mod_eq cap 8). unfold k, fill_required in Q. destruct (Nat.leb_spec cap (h + sl)) as [Q1|Q1].
        - unfold k, fill_required. destruct (Nat.leb_spec cap (h + sl)); [|lia]. replace (h + sl + 0)%nat with (8 * (cap / 8))%nat by lia. rewrite Nat.mul_comm. now apply Nat.mod_mul.
        - destruct (fill_bytealigned_spec (h + sl)) as (A1 & A2 & A3). destruct (Nat.leb_spec (h + sl + fill_bytealigned (h + sl)) cap) as [Q2|Q2].
          + unfold k, fill_required. destruct (Nat.leb_spec cap (h + sl)); [lia|]. destruct (Nat.leb_spec (h + sl + fill_bytealigned (h + sl)) cap); [assumption|lia].
          + exfalso. specialize (A3 (8 * (cap / 8) - (h + sl))%nat). replace (h + sl + (8 * (cap / 8) - (h + sl)))%nat with (cap / 8 * 8)%nat in A3 by lia.
            rewrite Nat.mod_mul in A3 by lia. specialize (A3 eq_refl). lia. }
      set (t8 := ((h + sl + k) / 8)%nat). assert (HT : (h + sl + k = 8 * t8)%nat) by (unfold t8; pose proof (Nat.div_mod_eq (h + sl + k) 8); lia).
      set (r := mr_set_len (fg_res f) (to_u8 (N.of_nat t8)) (0 <? k)%nat).
      assert (HL : mr_len r = N.of_nat t8) by (unfold r; cbn [mr_len mr_set_len]; apply to_u8_small; lia).
      assert (HV : mr_valid r = true).
      { unfold r. rewrite to_u8_small by lia. apply set_len_valid; [assumption|lia|lia|]. intros HN.
        assert (HS0 : sl = 0%nat) by (unfold sl; rewrite (In_ HN); reflexivity). assert (HH : h = 16%nat) by (apply mr_null_width; assumption).
        unfold k. rewrite HS0, HH. unfold fill_required. destruct (cap <=? 16 + 0)%nat; [reflexivity|]. change (fill_bytealigned (16 + 0)) with 0%nat. destruct (16 + 0 + 0 <=? cap)%nat eqn:EQ; [reflexivity|]. apply Nat.leb_gt in EQ. lia. }
      assert (HLen : length (enc (mr_layout r)) = h) by (rewrite enc_length; unfold r; apply set_len_width).
      destruct (emit (mr_write r) (enc (mr_layout r)) sl k (fg_sdu f) blk (proj1 (mr_carries r HV)) Iw Bw) as (b1 & b2 & b3 & E1 & E2 & E3 & _ & O); [lia|fold cap; lia|].
      rewrite E1. cbn [bind]. rewrite E2. cbn [bind]. rewrite E3. cbn [bind fg_rep fg_res fg_hdr fg_sdu].
      destruct (REP true (fun rep => Ok (true, mk_fg r true true (adv (fg_sdu f) sl) rep, b3))) as (rep' & ER & _ & ER2). rewrite ER.
      assert (FN : firstn sl (remaining (fg_sdu f)) = remaining (fg_sdu f)) by (apply firstn_all2; unfold sl; lia).
      exists true, (mk_fg r true true (adv (fg_sdu f) sl) rep'), b3, (enc (mr_layout r) ++ firstn sl (remaining (fg_sdu f)) ++ pad k).
      split; [reflexivity|]. split; [exact O|]. split; [reflexivity|]. split; [discriminate|]. split; [unfold hdr_bits; cbn [fg_res]; unfold r; apply set_len_width|]. split; [exact ER2|].
      assert (LW : length (enc (mr_layout r) ++ firstn sl (remaining (fg_sdu f)) ++ pad k) = (t8 * 8)%nat).
      { rewrite !app_length, HLen, pad_length, FN. fold sl. lia. }
      right. split; [intros HH; apply (f_equal (@length bool)) in HH; rewrite LW in HH; cbn [length] in HH; lia|].
      split; [reflexivity|]. rewrite LW. fold cap. split; [lia|]. split; [left; now apply Nat.mod_mul|].
      exists (firstn sl (remaining (fg_sdu f))). split; [apply adv_firstn; [assumption|unfold sl; lia]|].
      split; [intros _; cbn [fg_sdu]; rewrite remaining_adv by assumption; apply skipn_all2; unfold sl; lia|]. split; [discriminate|].
      intros tail HTT. rewrite EH. cbn [negb rx_slot]. apply rx_resource_whole; [assumption|rewrite HL; lia|reflexivity|]. rewrite HL, HLen, FN. fold sl. lia.
    + destruct (Nat.ltb_spec cap MIN_RES_FRAG_START) as [HM|HM]; [|destruct (Nat.ltb_spec cap h) as [HM2|HM2]]; cbn [orb].
      1,2: cbn [bind fg_rep fg_res fg_hdr fg_sdu];
        destruct (REP false (fun rep => Ok (false, mk_fg (fg_res f) (fg_hdr f) false (fg_sdu f) rep, blk))) as (rep' & ER & ER1 & _); rewrite ER;
        exists false, (mk_fg (fg_res f) (fg_hdr f) false (fg_sdu f) rep'), blk, [];
        (split; [reflexivity|]); (split; [apply wrote_nil; assumption|]); (split; [reflexivity|]); rewrite (ER1 eq_refl);
        (split; [intros _; unfold fg_inv; cbn [fg_done fg_sdu fg_res fg_rep fg_hdr]; (split; [reflexivity|]); (split; [assumption|]); (split; [assumption|]); (split; [assumption|]); (split; [intros _; assumption|assumption])|]);
        (split; [reflexivity|]); (split; [discriminate|]); left; repeat (split; [reflexivity|]); rewrite EH; (split; [|discriminate]); intros _; fold cap h; unfold MIN_RES_FRAG_START in *; lia.
      (* start of fragmentation *)
      unfold MIN_RES_FRAG_START in HM.
      assert (HK0 : k = 0%nat). { destruct (Nat.leb_spec cap (h + sl)); [now apply FR1|]. destruct (FR2 ltac:(lia)); lia. }
      rewrite HK0 in *. cbn [Nat.eqb assert bind].
      set (r := mr_set_len (fg_res f) 63 false).
      assert (HV : mr_valid r = true) by (apply set_len_valid; [assumption|lia|lia|auto]).
      assert (HLen : length (enc (mr_layout r)) = h) by (rewrite enc_length; unfold r; apply set_len_width).
      destruct (emit (mr_write r) (enc (mr_layout r)) (cap - h) 0 (fg_sdu f) blk (proj1 (mr_carries r HV)) Iw Bw) as (b1 & b2 & b3 & E1 & E2 & E3 & O2 & _); [fold sl; lia|fold cap; lia|].
      assert (LF : length (firstn (cap - h) (remaining (fg_sdu f))) = (cap - h)%nat) by (rewrite firstn_length; fold sl; lia).
      assert (EB : fill_write None b2 = Ok b2).
      { pose proof (wrote_rem_len _ _ _ Bw O2) as RL2. rewrite app_length, HLen, LF in RL2. fold cap in RL2. specialize (RL2 ltac:(lia)).
        destruct O2 as (W2 & _). unfold fill_write. rewrite len_rem by assumption. cbn [bind]. rewrite RL2. replace (cap - (h + (cap - h)))%nat with 0%nat by lia. reflexivity. }
      rewrite E1. cbn [bind]. rewrite E2. cbn [bind]. rewrite EB. cbn [bind fg_rep fg_res fg_hdr fg_sdu].
      destruct (REP false (fun rep => Ok (false, mk_fg r true false (adv (fg_sdu f) (cap - h)) rep, b2))) as (rep' & ER & ER1 & _). rewrite ER.
      exists false, (mk_fg r true false (adv (fg_sdu f) (cap - h)) rep'), b2, (enc (mr_layout r) ++ firstn (cap - h) (remaining (fg_sdu f))).
      split; [reflexivity|]. split; [exact O2|]. split; [reflexivity|]. rewrite (ER1 eq_refl). split.
      { intros _. unfold fg_inv; cbn [fg_done fg_sdu fg_res fg_rep fg_hdr]. split; [reflexivity|]. split; [apply wf_adv; [assumption|fold sl; lia]|]. split; [assumption|]. split; [assumption|].
        split; [discriminate|]. intros HN. rewrite remaining_adv by assumption. rewrite (In_ HN). now rewrite skipn_nil. }
      split; [unfold hdr_bits; cbn [fg_res]; unfold r; apply set_len_width|]. split; [discriminate|]. right.
      assert (LW : length (enc (mr_layout r) ++ firstn (cap - h) (remaining (fg_sdu f))) = cap) by (rewrite app_length, HLen, LF; lia).
      split; [intros HH; apply (f_equal (@length bool)) in HH; rewrite LW in HH; cbn [length] in HH; lia|].
      split; [reflexivity|]. rewrite LW. fold cap. split; [lia|]. split; [right; reflexivity|].
      exists (firstn (cap - h) (remaining (fg_sdu f))). split; [apply adv_firstn; [assumption|fold sl; lia]|]. split; [discriminate|]. split; [rewrite EH; discriminate|].
      intros tail HTT. rewrite EH. cbn [negb rx_slot]. replace (enc (mr_layout r) ++ firstn (cap - h) (remaining (fg_sdu f))) with (enc (mr_layout r) ++ firstn (cap - h) (remaining (fg_sdu f)) ++ pad 0) by (cbn [pad]; now rewrite app_nil_r).
      eapply rx_resource_start; [assumption|reflexivity|reflexivity|reflexivity|]. rewrite app_length, LW in HTT. fold cap in HTT. lia.
Qed.

(** The report is untouched while the SDU is not finished. *)
Lemma next_chunk_rep f b f1 b1 : fg_next_chunk f b = Ok (false, f1, b1) -> fg_rep f1 = fg_rep f.
Proof.
  intros E. unfold fg_next_chunk in E. destruct (negb (fg_done f)); [|discriminate]. cbn [assert bind] in E. destruct (get_pos b); cbn [bind] in E; try discriminate E.
  destruct (get_len_remaining b); cbn [bind] in E; try discriminate E. destruct (_ || _)%bool; [|discriminate E]. cbn [assert bind] in E.
  destruct (if fg_hdr f then fg_frag_or_end_chunk f b else fg_resource_chunk f b) as [[[dn' f'] b'']| |] eqn:EC; cbn [bind] in E; try discriminate E.
  assert (EF : fg_rep f' = fg_rep f).
  { clear E. destruct (fg_hdr f) eqn:EH; [unfold fg_frag_or_end_chunk in EC; rewrite EH in EC; cbn [assert bind] in EC|unfold fg_resource_chunk in EC];
      repeat (match type of EC with
        | bind ?x _ = _ => destruct x as [?| |]; cbn [bind] in EC; try discriminate EC
        | (if ?c then _ else _) = _ => destruct c
        | (let '(_, _) := ?p in _) = _ => destruct p
        | (let x := _ in _) = _ => cbv zeta in EC end); congruence || (inversion EC; reflexivity). }
  destruct (fg_rep f') as [t|]; [destruct dn'|]; cbn [bind] in E.
  - destruct (tx_mark_transmitted t); cbn [bind] in E; discriminate E.
  - inversion E. cbn [fg_rep]. congruence.
  - inversion E. cbn [fg_rep]. congruence.
Qed.
Lemma run_rep blks : forall f out f', fg_run f blks = Ok (out, false, f') -> fg_rep f' = fg_rep f.
Proof.
  induction blks as [|b t IH]; intros f out f' E; cbn [fg_run] in E; [congruence|].
  destruct (fg_next_chunk f b) as [[[dn f1] b1]| |] eqn:EC; cbn [bind] in E; try discriminate E. cbv zeta in E. destruct dn; [discriminate E|].
  destruct (fg_run f1 t) as [[[rest d] f2]| |] eqn:ER; cbn [bind] in E; try discriminate E. assert (d = false /\ f2 = f') as [-> ->] by (split; congruence).
  rewrite (IH _ _ _ ER). exact (next_chunk_rep _ _ _ _ EC).
Qed.
Lemma run_spec blks : forall f, fg_inv f -> Forall block_ok blks ->
  (fg_hdr f = false -> Forall (fun b => whole_octets (hdr_bits f) (length (remaining (fg_sdu f))) (length (remaining b))) blks) ->
  exists out dn f', fg_run f blks = Ok (out, dn, f') /\ Forall (fun o => (0 < length (fst o) <= snd o)%nat) out /\ fg_done f' = dn /\
    (dn = true -> (forall slots, Forall2 arrives out slots -> (if fg_hdr f then rx_rest else rx_all) slots = Some (remaining (fg_sdu f))) /\
                  (pending (fg_rep f) -> transmitted (fg_rep f) (fg_rep f'))) /\
    (dn = false -> fg_inv f' /\ hdr_bits f' = hdr_bits f).
Proof.
  induction blks as [|b t IH]; intros f I B WO.
  - exists [], false, f. split; [reflexivity|]. split; [constructor|]. split; [apply I|]. split; [discriminate|]. auto.
  - inversion B as [|? ? Bb Bt]; subst. cbn [fg_run].
    destruct (next_chunk_spec f b I Bb) as (dn & f1 & b1 & w & E & O & D1 & I1 & HB1 & REP1 & C1).
    { intros H. specialize (WO H). inversion WO; subst; assumption. }
    rewrite E. cbn [bind].
    assert (EW : bits_rng (bytes b1) (bpos b) (bpos b1 - bpos b) = w).
    { pose proof O as (_ & _ & _ & P & _). rewrite P. replace (bpos b + length w - bpos b)%nat with (length w) by lia. exact (wrote_bits _ _ _ O). }
    cbv zeta. rewrite EW. destruct dn.
    + (* finished with this block *)
      destruct C1 as [(Ew & Ed & _)|(Nw & Hh & Lw & Al & d & ED & EE & _ & RX)]; [discriminate|]. specialize (EE eq_refl). rewrite EE, app_nil_r in ED.
      destruct (Nat.eqb_spec (length w) 0) as [Z|Z]; [destruct w; [congruence|discriminate]|].
      exists [(w, length (remaining b))], true, f1. split; [reflexivity|]. split; [constructor; [cbn [fst snd]; lia|constructor]|]. split; [assumption|]. split; [|discriminate].
      intros _. split; [|intros PP; specialize (REP1 eq_refl); unfold transmitted; exact REP1].
      intros slots HS. inversion HS as [|? sl ? ? HA HS2]; subst. inversion HS2; subst. destruct HA as (HL & tail & HT). cbn [fst snd] in *.
      rewrite HT in HL. specialize (RX tail HL). rewrite <- HT in RX. unfold rx_slot in RX.
      destruct (fg_hdr f); cbn [negb] in RX; cbn [rx_rest rx_all]; rewrite RX; cbn [negb]; congruence.
    + specialize (I1 eq_refl).
      assert (WO1 : fg_hdr f1 = false -> Forall (fun b => whole_octets (hdr_bits f1) (length (remaining (fg_sdu f1))) (length (remaining b))) t).
      { intros H1. destruct C1 as [(_ & _ & ES & EHd & _)|(_ & Hh & _)]; [|congruence]. rewrite HB1, ES. rewrite EHd in H1. specialize (WO H1). inversion WO; subst; assumption. }
      destruct (IH f1 I1 Bt WO1) as (out & dn & f2 & E2 & F2 & D2 & HD & HN).
      rewrite E2. cbn [bind]. exists ((if (length w =? 0)%nat then [] else [(w, length (remaining b))]) ++ out), dn, f2.
      split; [reflexivity|]. destruct C1 as [(Ew & Ed & ES & EHd & _)|(Nw & Hh & Lw & Al & d & ED & EE & _ & RX)].
      * subst w. cbn [length Nat.eqb app]. split; [assumption|]. split; [assumption|]. split; [|intros H; destruct (HN H); split; [assumption|congruence]].
        intros H. destruct (HD H) as (HD1 & HD2). rewrite EHd, ES in HD1. split; [assumption|]. intros PP.
        (* the reporter is untouched when not done *)
        pose proof (next_chunk_rep _ _ _ _ E) as ER.
        rewrite <- ER. apply HD2. rewrite ER. assumption.
      * destruct (Nat.eqb_spec (length w) 0) as [Z|Z]; [destruct w; [congruence|discriminate]|]. cbn [app].
        split; [constructor; [cbn [fst snd]; lia|assumption]|]. split; [assumption|]. split; [|intros H; destruct (HN H); split; [assumption|congruence]].
        intros H. destruct (HD H) as (HD1 & HD2). split.
        -- intros slots HS. inversion HS as [|? sl ? sls HA HS2]; subst. destruct HA as (HL & tail & HT). cbn [fst snd] in *.
           rewrite HT in HL. specialize (RX tail HL). rewrite <- HT in RX. specialize (HD1 sls HS2). rewrite Hh in HD1. unfold rx_slot in RX.
           destruct (fg_hdr f); cbn [negb] in RX; cbn [rx_rest rx_all]; rewrite RX, HD1; cbn [negb]; now rewrite ED.
        -- intros PP.
           pose proof (next_chunk_rep _ _ _ _ E) as ER.
           rewrite <- ER. apply HD2. rewrite ER. assumption.
Qed.
