(** What the scheduler needs of its state to make the next slot: nothing in a queue can stop it. *)
From Coq Require Import Arith.
From Verif Require Import Base BitsLib BitBuffer BitBufferProofs BitBufferOps Codec CodecProofs TypedFields MacFields MacPdus Layout LayoutProofs
  MacSpec MacPdusProofs FillBits BsFrag FragSpec FillProofs FragProofs TxReceipt TdmaTime UmacCircuits UmacCircuitsProofs UlSched LlcBits DlSched DlSchedSpec SlotTame DlChunk DlBuild DlNotes DlSlot AliveSpec.
Open Scope nat_scope.

(** * One message *)
Definition fg_live (f : fragger) : Prop :=
  fg_done f = false /\ wf (fg_sdu f) /\ FragSpec.pending (fg_rep f) /\ (fg_hdr f = false -> bpos (fg_sdu f) = bstart (fg_sdu f)).

Lemma chunk_total f blk : fg_live f -> (fg_hdr f = false -> sendable (fg_res f)) -> blk_ok blk ->
  exists dn f' blk' w, fg_next_chunk f blk = Ok (dn, f', blk') /\ wrote blk blk' w /\ (dn = false -> fg_live f') /\
    length w <= length (remaining blk) /\ (length w mod 8 = 0 \/ length w = length (remaining blk)).
Proof.
  intros (Id & Iw & Ip & Ih) Is ((Bw & Ba & Bc & Bal) & Bm).
  unfold fg_next_chunk. rewrite Id. cbn [negb assert bind]. rewrite pos_ok, len_rem by assumption. cbn [bind].
  assert (HA : ((bpos blk - bstart blk) mod 8 =? 0) || (length (remaining blk) =? 0) = true).
  { apply orb_true_iff. destruct Bal as [B|B]; [left|right]; now apply Nat.eqb_eq. }
  rewrite HA. cbn [assert bind]. set (cap := length (remaining blk)) in *. set (sl := length (remaining (fg_sdu f))) in *.
  assert (REP : forall (dn : bool) (rest : option tx_reporter -> res (bool * fragger * bitbuf)),
    exists rep', (rep <- match fg_rep f with Some t => if dn then t <- tx_mark_transmitted t ;; Ok (Some t) else Ok (Some t) | None => Ok None end ;; rest rep) = rest rep' /\
      (dn = false -> rep' = fg_rep f)).
  { intros dn rest. destruct (fg_rep f) as [t|] eqn:ER; [|exists None; cbn; repeat split; auto].
    destruct dn; [|exists (Some t); repeat split; auto; discriminate].
    unfold tx_mark_transmitted, tx_mark. cbn [FragSpec.pending] in Ip. rewrite Ip, Nat.eqb_refl. cbn [bind].
    eexists. split; [reflexivity|]. discriminate. }
  assert (SAME : forall b, b = fg_hdr f -> mk_fg (fg_res f) b false (fg_sdu f) (fg_rep f) = f) by (intros b ->; destruct f; cbn in *; congruence).
  assert (LIVE : fg_live f) by (split; [assumption|]; split; [assumption|]; split; assumption).
  destruct (fg_hdr f) eqn:EH.
  - unfold fg_frag_or_end_chunk. rewrite EH. cbn [assert bind]. rewrite !len_rem by assumption. cbn [bind]. fold sl cap.
    unfold mend_compute_hdr_len. cbn [negb assert bind].
    set (eb := 2 + 1 + 1 + 1 + 6 + 1 + 0 + 1 + sl). change (2 + 1 + 1 + 1 + 6 + 1 + 0 + 1) with 13 in eb. fold eb.
    replace (2 + 1 + 1 + 1 + 6 + 1 + (if false then 6 else 0) + 1 + sl) with eb by reflexivity.
    set (by_ := (eb + 7) / 8).
    assert (HBY : eb <= by_ * 8 < eb + 8) by (unfold by_; pose proof (Nat.div_mod_eq (eb + 7) 8); pose proof (Nat.mod_upper_bound (eb + 7) 8); lia).
    destruct (Nat.leb_spec (by_ * 8) cap) as [HE|HE].
    + set (k := fill_required eb cap).
      assert (HK : eb + k = by_ * 8).
      { unfold k, fill_required. destruct (Nat.leb_spec cap eb) as [H1|H1]; [lia|].
        destruct (fill_bytealigned_spec eb) as (F1 & F2 & F3).
        assert (eb + fill_bytealigned eb = by_ * 8).
        { specialize (F3 (by_ * 8 - eb)). replace (eb + (by_ * 8 - eb)) with (by_ * 8) in F3 by lia. rewrite Nat.mod_mul in F3 by lia.
          specialize (F3 eq_refl). pose proof (Nat.div_mod_eq (eb + fill_bytealigned eb) 8). lia. }
        destruct (Nat.leb_spec (eb + fill_bytealigned eb) cap); lia. }
      set (pdu := mk_mend (0 <? k) 0 (to_u8 (N.of_nat by_)) None None).
      assert (HL : me_len pdu = N.of_nat by_) by (unfold pdu; cbn [me_len]; apply to_u8_small; lia).
      assert (HV : mend_valid pdu = true).
      { unfold mend_valid, mend_layout. rewrite HL. cbn [me_fill me_pog me_sg me_ca pdu optl app opt_valid fits forallb fst snd fl]. rewrite !andb_true_iff.
        change (2 ^ N.of_nat 6)%N with 64%N. repeat split; try reflexivity; try (apply N.ltb_lt; lia). destruct (0 <? k); reflexivity. }
      assert (HLen : length (enc (mend_layout pdu)) = 13) by reflexivity.
      destruct (emit (mend_write pdu) (enc (mend_layout pdu)) sl k (fg_sdu f) blk (proj1 (mend_carries pdu HV)) Iw Bw) as (b1 & b2 & b3 & E1 & E2 & E3 & _ & O); [lia|unfold eb in *; fold cap; lia|].
      rewrite E1. cbn [bind]. rewrite E2. cbn [bind]. rewrite fg_pad_eq, E3. cbn [bind fg_rep fg_res fg_hdr fg_sdu].
      destruct (REP true (fun rep => Ok (true, mk_fg (fg_res f) true true (adv (fg_sdu f) sl) rep, b3))) as (rep' & ER & _). rewrite ER.
      assert (LW : length (enc (mend_layout pdu) ++ firstn sl (remaining (fg_sdu f)) ++ pad k) = by_ * 8).
      { rewrite !app_length, HLen, pad_length, firstn_length. fold sl. unfold eb in HK. lia. }
      eexists true, _, b3, _. split; [reflexivity|]. split; [exact O|]. split; [discriminate|]. rewrite LW. split; [lia|]. left. now apply Nat.mod_mul.
    + destruct (Nat.ltb_spec cap MIN_FRAG) as [HM|HM].
      * cbn [bind fg_rep fg_res fg_hdr fg_sdu].
        destruct (REP false (fun rep => Ok (false, mk_fg (fg_res f) (fg_hdr f) false (fg_sdu f) rep, blk))) as (rep' & ER & ER1). rewrite ER.
        rewrite (ER1 eq_refl), EH, SAME by congruence. exists false, f, blk, [].
        split; [reflexivity|]. split; [apply wrote_nil; assumption|]. split; [intros _; exact LIVE|]. split; [cbn; lia|]. left. reflexivity.
      * unfold MIN_FRAG in HM. set (n := Nat.min (cap - 4) sl). set (k := cap - 4 - n).
        assert (HLen : length (enc (mfrag_layout (0 <? k))) = 4) by (destruct (0 <? k); reflexivity).
        destruct (emit (mfrag_write (0 <? k)) (enc (mfrag_layout (0 <? k))) n k (fg_sdu f) blk (proj1 (mfrag_carries _)) Iw Bw) as (b1 & b2 & b3 & E1 & E2 & E3 & _ & O); [unfold n, sl; lia|rewrite HLen; fold cap; unfold k, n; lia|].
        rewrite E1. cbn [bind]. rewrite E2. cbn [bind]. rewrite fg_pad_eq, E3. cbn [bind fg_rep fg_res fg_hdr fg_sdu].
        destruct (REP false (fun rep => Ok (false, mk_fg (fg_res f) true false (adv (fg_sdu f) n) rep, b3))) as (rep' & ER & ER1). rewrite ER.
        rewrite (ER1 eq_refl).
        assert (LF : length (firstn n (remaining (fg_sdu f))) = n) by (rewrite firstn_length; fold sl; unfold n; lia).
        assert (LW : length (enc (mfrag_layout (0 <? k)) ++ firstn n (remaining (fg_sdu f)) ++ pad k) = cap).
        { rewrite !app_length, HLen, pad_length, LF. unfold k, n. lia. }
        eexists false, _, b3, _. split; [reflexivity|]. split; [exact O|].
        split. { intros _. unfold fg_live; cbn [fg_done fg_sdu fg_res fg_rep fg_hdr]. split; [reflexivity|]. split; [apply wf_adv; [assumption|unfold n, sl; lia]|]. split; [assumption|discriminate]. }
        rewrite LW. split; [lia|]. right. reflexivity.
  - specialize (Ih eq_refl). specialize (Is eq_refl).
    unfold fg_resource_chunk. rewrite pos_ok by assumption. rewrite Ih, Nat.sub_diag. cbn [bind Nat.eqb assert]. rewrite EH. cbn [negb assert bind].
    rewrite !len_rem by assumption. cbn [bind]. fold sl cap.
    pose proof (proj2 Is) as EN. rewrite EN. cbn [andb negb assert bind]. rewrite (sendable_len _ Is). cbn [bind].
    change (width (mr_layout (fg_res f))) with (hdr_bits f).
    assert (HHM : 16 <= hdr_bits f) by apply mr_width_min.
    set (h := hdr_bits f) in *.
    set (k := fill_required (h + sl) cap). destruct (fill_required_spec (h + sl) cap) as (FR1 & FR2). fold k in FR1, FR2.
    destruct (Nat.leb_spec (h + sl + k) cap) as [HF|HF].
    + assert (HAs : ((h + sl + k) mod 8 =? 0) || (h + sl + k =? cap) = true).
      { apply orb_true_iff. destruct (FR2 ltac:(lia)) as (_ & [Q|Q] & _); [left|right]; now apply Nat.eqb_eq. }
      rewrite HAs. cbn [assert bind].
      set (t8 := (h + sl + k) / 8). pose proof (Nat.div_mod_eq (h + sl + k) 8) as DM. fold t8 in DM.
      set (r := mr_set_len (fg_res f) (to_u8 (N.of_nat t8)) (0 <? k)).
      assert (HT1 : 1 <= t8) by (pose proof (Nat.mod_upper_bound (h + sl + k) 8 ltac:(lia)); lia).
      assert (HV : mr_valid r = true) by (unfold r; rewrite to_u8_small by lia; apply sendable_valid; [assumption|lia|lia]).
      assert (HLen : length (enc (mr_layout r)) = h) by (rewrite enc_length; unfold r; apply set_len_width).
      destruct (emit (mr_write r) (enc (mr_layout r)) sl k (fg_sdu f) blk (proj1 (mr_carries r HV)) Iw Bw) as (b1 & b2 & b3 & E1 & E2 & E3 & _ & O); [lia|fold cap; lia|].
      rewrite E1. cbn [bind]. rewrite E2. cbn [bind]. rewrite E3. cbn [bind fg_rep fg_res fg_hdr fg_sdu].
      destruct (REP true (fun rep => Ok (true, mk_fg r true true (adv (fg_sdu f) sl) rep, b3))) as (rep' & ER & _). rewrite ER.
      assert (LW : length (enc (mr_layout r) ++ firstn sl (remaining (fg_sdu f)) ++ pad k) = h + sl + k).
      { rewrite !app_length, HLen, pad_length, firstn_length. fold sl. lia. }
      eexists true, _, b3, _. split; [reflexivity|]. split; [exact O|]. split; [discriminate|]. rewrite LW. split; [lia|].
      destruct (FR2 ltac:(lia)) as (_ & [Q|Q] & _); auto.
    + destruct (Nat.ltb_spec cap MIN_RES_FRAG_START) as [HM|HM]; [|destruct (Nat.ltb_spec cap h) as [HM2|HM2]]; cbn [orb].
      1,2: cbn [bind fg_rep fg_res fg_hdr fg_sdu];
        destruct (REP false (fun rep => Ok (false, mk_fg (fg_res f) (fg_hdr f) false (fg_sdu f) rep, blk))) as (rep' & ER & ER1); rewrite ER;
        rewrite (ER1 eq_refl), EH, SAME by congruence; exists false, f, blk, [];
        (split; [reflexivity|]); (split; [apply wrote_nil; assumption|]); (split; [intros _; exact LIVE|]); (split; [cbn; lia|]); left; reflexivity.
      unfold MIN_RES_FRAG_START in HM.
      assert (HK0 : k = 0). { destruct (Nat.leb_spec cap (h + sl)); [now apply FR1|]. destruct (FR2 ltac:(lia)); lia. }
      rewrite HK0 in *. cbn [Nat.eqb assert bind].
      set (r := mr_set_len (fg_res f) 63 false).
      assert (HV : mr_valid r = true) by (apply sendable_valid; [assumption|lia|lia]).
      assert (HLen : length (enc (mr_layout r)) = h) by (rewrite enc_length; unfold r; apply set_len_width).
      destruct (emit (mr_write r) (enc (mr_layout r)) (cap - h) 0 (fg_sdu f) blk (proj1 (mr_carries r HV)) Iw Bw) as (b1 & b2 & b3 & E1 & E2 & E3 & O2 & _); [fold sl; lia|fold cap; lia|].
      assert (LF : length (firstn (cap - h) (remaining (fg_sdu f))) = cap - h) by (rewrite firstn_length; fold sl; lia).
      assert (EB : fill_write None b2 = Ok b2).
      { pose proof (wrote_rem_len _ _ _ Bw O2) as RL2. rewrite app_length, HLen, LF in RL2. fold cap in RL2. specialize (RL2 ltac:(lia)).
        destruct O2 as (W2 & _). unfold fill_write. rewrite len_rem by assumption. cbn [bind]. rewrite RL2. replace (cap - (h + (cap - h))) with 0 by lia. reflexivity. }
      rewrite E1. cbn [bind]. rewrite E2. cbn [bind]. rewrite EB. cbn [bind fg_rep fg_res fg_hdr fg_sdu].
      destruct (REP false (fun rep => Ok (false, mk_fg r true false (adv (fg_sdu f) (cap - h)) rep, b2))) as (rep' & ER & ER1). rewrite ER.
      rewrite (ER1 eq_refl).
      assert (LW : length (enc (mr_layout r) ++ firstn (cap - h) (remaining (fg_sdu f))) = cap) by (rewrite app_length, HLen, LF; lia).
      eexists false, _, b2, _. split; [reflexivity|]. split; [exact O2|].
      split. { intros _. unfold fg_live; cbn [fg_done fg_sdu fg_res fg_rep fg_hdr]. split; [reflexivity|]. split; [apply wf_adv; [assumption|fold sl; lia]|]. split; [assumption|discriminate]. }
      rewrite LW. split; [lia|]. right. reflexivity.
Qed.

(** the same for an outcome that is given *)
Lemma copy_src fuel : forall n b src b' src', wf src -> copy_bits_loop fuel n b src = Ok (b', src') -> wf src'.
Proof.
  induction fuel as [|f IH]; intros n b src b' src' W E; cbn [copy_bits_loop] in E; destruct (n =? 0); try (injection E as _ <-; exact W); [discriminate E|].
  cbv zeta in E. bi E. bi E. rewrite read_bits_opt_spec in E by (auto; lia). cbn [bind] in E.
  destruct (Nat.leb_spec (Nat.min n 64) (length (remaining src))) as [L|L]; [|discriminate E]. cbn [unwrap bind] in E. bi E. exact (IH _ _ _ _ _ (wf_adv _ _ W L) E).
Qed.
Lemma chunk_keeps f blk f' blk' : fg_live f -> fg_next_chunk f blk = Ok (false, f', blk') -> fg_live f'.
Proof.
  intros L E. pose proof L as (Id & Iw & Ip & Ih). unfold fg_next_chunk in E. bi E. bi E. bi E. bi E. bi E. destruct x3 as [[dn g] b1].
  assert (EG : fg_live g /\ dn = false).
  { assert (dn = false) as -> by (bi E; congruence). split; [|reflexivity]. clear E. destruct (fg_hdr f) eqn:EH.
    - unfold fg_frag_or_end_chunk in E4. bi E4. bi E4. bi E4. cbv zeta in E4. bi E4. match type of E4 with (if ?c then _ else _) = _ => destruct c end.
      + bi E4. bi E4. destruct x8. bi E4. discriminate E4.
      + match type of E4 with (if ?c then _ else _) = _ => destruct c end; [assert (f = g) as <- by congruence; exact L|]. bi E4. bi E4. destruct x8 as [b3 sd]. bi E4.
        assert (EG : g = mk_fg (fg_res f) true (fg_done f) sd (fg_rep f)) by congruence. rewrite EG. unfold fg_live. cbn [fg_done fg_sdu fg_res fg_rep fg_hdr].
        split; [exact Id|]. match goal with H : copy_bits _ _ _ = Ok _ |- _ => split; [exact (copy_src _ _ _ _ _ _ Iw H)|] end. split; [exact Ip|discriminate].
    - unfold fg_resource_chunk in E4. do 7 (bi E4). cbv zeta in E4. match type of E4 with (if ?c then _ else _) = _ => destruct c end.
      + do 2 (bi E4). bi E4. match type of E4 with context [let (_, _) := ?x in _] => destruct x end. bi E4. discriminate E4.
      + match type of E4 with (if ?c then _ else _) = _ => destruct c end; [assert (f = g) as <- by congruence; exact L|]. do 2 (bi E4). bi E4. match type of E4 with context [let (_, _) := ?x in _] => destruct x as [b3 sd] end. bi E4.
        match type of E4 with Ok (_, ?h, _) = _ => assert (EG : g = h) by congruence end. rewrite EG. unfold fg_live. cbn [fg_done fg_sdu fg_res fg_rep fg_hdr].
        split; [exact Id|]. match goal with H : copy_bits _ _ _ = Ok _ |- _ => split; [exact (copy_src _ _ _ _ _ _ Iw H)|] end. split; [exact Ip|discriminate]. }
  destruct EG as ((Gd & Gw & Gp & Gh) & ->). bi E. match type of E with Ok (_, ?h, _) = _ => assert (EF : f' = h) by congruence end. rewrite EF. unfold fg_live. cbn [fg_done fg_sdu fg_res fg_rep fg_hdr].
  split; [reflexivity|]. split; [exact Gw|]. split; [|exact Gh]. match goal with H : (match fg_rep g with _ => _ end) = Ok ?r |- _ => assert (ER : r = fg_rep g) by (destruct (fg_rep g); congruence) end. rewrite ER. exact Gp.
Qed.

(** * A queue *)
Definition lawful (e : dl_elem) : Prop :=
  match e with
  | DlResource p sdu rep => wf sdu /\ bpos sdu = bstart sdu /\ FragSpec.pending rep
  | DlFrag f => fg_live f
  | DlGrant _ _ | DlAck _ => True
  | DlSteal _ rep => FragSpec.pending rep
  | DlBroadcast => False
  end.
Definition writable (e : dl_elem) : Prop := match heads e with Some p => sendable p | None => True end.
Lemma sendable_dec p : sendable p \/ ~ sendable p.
Proof.
  unfold sendable. destruct (mr_valid _), (mr_is_null p); (left; split; reflexivity) || (right; intros (A & B); discriminate).
Qed.
Lemma not_hopeless q : ~ Exists hopeless q -> Forall writable q.
Proof.
  intros H. induction q as [|e q IH]; [constructor|]. constructor; [|apply IH; intros X; apply H; now right].
  unfold writable. destruct (heads e) as [p|] eqn:E; [|exact Logic.I]. destruct (sendable_dec p) as [X|X]; [exact X|]. exfalso. apply H. left. exists p. auto.
Qed.

Lemma integrate_one_keeps q e q' : Forall lawful q -> integrate_one q e = Ok q' -> Forall lawful q'.
Proof.
  intros HQ E. unfold integrate_one in E. bi E. pose proof (split_spec (ad_ssi x) q) as SS. destruct (split_resource (ad_ssi x) q) as [[[l [[p sdu] rep]] r]|].
  - destruct SS as (-> & _). injection E as <-. apply Forall_app in HQ. destruct HQ as (H1 & H2). apply Forall_app. split; [exact H1|]. constructor; [exact (Forall_inv H2)|exact (Forall_inv_tail H2)].
  - bi E. injection E as <-. apply Forall_app. split; [exact HQ|]. constructor; [|constructor]. split; [apply wf_new|]. split; [reflexivity|exact Logic.I].
Qed.
Lemma integrate_all_keeps notes : forall q q', Forall lawful q -> integrate_all q notes = Ok q' -> Forall lawful q'.
Proof.
  induction notes as [|e t IH]; intros q q' HQ E; cbn [integrate_all] in E; [injection E as <-; exact HQ|]. bi E. exact (IH _ _ (integrate_one_keeps _ _ _ HQ E0) E).
Qed.
Lemma integrate_one_total q e : Forall writable q -> is_note e = true -> writable e -> existsb is_note q = false ->
  exists q', integrate_one q e = Ok q' /\ Forall writable q' /\ existsb is_note q' = false /\ existsb is_steal q' = existsb is_steal q.
Proof.
  intros HQ HN HE NQ. unfold integrate_one.
  assert (exists a p', (match e with DlGrant a _ | DlAck a => Ok a | _ => @Panic tetra_addr end) = Ok a /\
     (match e with DlGrant _ g => dl_make_minimal_resource a (Some g) false | _ => dl_make_minimal_resource a None true end) = Ok p' /\ sendable p' /\
     (forall p, sendable p -> sendable (match e with DlGrant _ g => mr_set_grant p g | _ => mr_set_ack p end))) as (a & p' & EA & EP & SP & SN).
  { destruct e as [|a|a g|p sdu rep|f|b rep]; try discriminate HN.
    - exists a. eexists. split; [reflexivity|]. split; [reflexivity|]. split; [exact HE|]. intros p. apply ack_sendable.
    - exists a. eexists. split; [reflexivity|]. split; [reflexivity|]. split; [exact HE|]. intros p S. exact (grant_sendable p g a S HE). }
  rewrite EA. cbn [bind]. pose proof (split_spec (ad_ssi a) q) as SS. destruct (split_resource (ad_ssi a) q) as [[[l [[p sdu] rep]] r]|].
  - destruct SS as (-> & _). eexists. split; [reflexivity|]. apply Forall_app in HQ. destruct HQ as (H1 & H2). inversion H2 as [|? ? H3 H4]; subst.
    rewrite !existsb_app in *. cbn [existsb is_note is_steal orb] in *. split; [|split; [exact NQ|reflexivity]].
    apply Forall_app. split; [assumption|]. constructor; [|assumption]. apply SN. exact H3.
  - rewrite EP. cbn [bind]. eexists. split; [reflexivity|]. rewrite !existsb_app. cbn [existsb is_note is_steal orb]. rewrite !orb_false_r.
    split; [|split; [exact NQ|reflexivity]]. apply Forall_app. split; [assumption|]. constructor; [|constructor]. exact SP.
Qed.
Lemma integrate_all_total notes : forall q, Forall writable q -> forallb is_note notes = true -> Forall writable notes -> existsb is_note q = false ->
  exists q', integrate_all q notes = Ok q' /\ Forall writable q' /\ existsb is_note q' = false /\ existsb is_steal q' = existsb is_steal q.
Proof.
  induction notes as [|e t IH]; intros q HQ HN HA NQ; [exists q; cbn; auto|].
  cbn [forallb] in HN. apply andb_prop in HN. destruct HN as (N1 & N2). cbn [integrate_all].
  destruct (integrate_one_total q e HQ N1 (Forall_inv HA) NQ) as (q1 & -> & L1 & M1 & S1). cbn [bind].
  destruct (IH q1 L1 N2 (Forall_inv_tail HA) M1) as (q2 & E & L2 & M2 & S2). exists q2. split; [exact E|]. split; [exact L2|]. split; [exact M2|]. congruence.
Qed.
Lemma Forall_filter {A} (P : A -> Prop) f l : Forall P l -> Forall P (filter f l).
Proof. induction 1 as [|x l H F IH]; [constructor|]. cbn [filter]. destruct (f x); auto. Qed.
Lemma integrate_total k s q : get_q k s = Ok q -> Forall writable q ->
  exists q1, dl_integrate k s = Ok (put_q k q1 s) /\ Forall writable q1 /\ existsb is_note q1 = false /\ existsb is_steal q1 = existsb is_steal q.
Proof.
  intros EQ HA. unfold dl_integrate. rewrite EQ. cbn [bind].
  assert (N1 : forallb is_note (filter is_note q) = true) by (clear; induction q as [|e q IH]; [reflexivity|]; cbn [filter]; destruct (is_note e) eqn:E; [cbn [forallb]; now rewrite E|exact IH]).
  assert (N2 : existsb is_note (filter (fun e => negb (is_note e)) q) = false) by (clear; induction q as [|e q IH]; [reflexivity|]; cbn [filter]; destruct (is_note e) eqn:E; cbn [negb]; [exact IH|cbn [existsb]; now rewrite E]).
  assert (N3 : existsb is_steal (filter (fun e => negb (is_note e)) q) = existsb is_steal q).
  { clear. induction q as [|e q IH]; [reflexivity|]. cbn [filter existsb]. destruct (is_note e) eqn:E; cbn [negb]; [|cbn [existsb]; now rewrite IH]. rewrite IH. destruct e; try discriminate E; reflexivity. }
  destruct (integrate_all_total (filter is_note q) (filter (fun e => negb (is_note e)) q)) as (q1 & E & B & C & D); auto using Forall_filter.
  exists q1. rewrite E. cbn [bind]. split; [reflexivity|]. split; [exact B|]. split; [exact C|]. congruence.
Qed.
Lemma integrate_keeps k s s' q : get_q k s = Ok q -> Forall lawful q -> dl_integrate k s = Ok s' -> exists q1, s' = put_q k q1 s /\ Forall lawful q1.
Proof.
  intros EQ HL E. unfold dl_integrate in E. rewrite EQ in E. cbn [bind] in E. bi E. injection E as <-. eexists. split; [reflexivity|]. exact (integrate_all_keeps _ _ _ (Forall_filter _ _ _ HL) E0).
Qed.
Lemma take_first_in f q : match take_first f q with
  | Some (x, q') => f x = true /\ length q = S (length q') /\ (forall P, Forall P q -> P x /\ Forall P q') /\ (forall g, existsb g q = g x || existsb g q')
  | None => existsb f q = false end.
Proof.
  induction q as [|e q IH]; [reflexivity|]. cbn [take_first]. destruct (f e) eqn:E.
  - split; [exact E|]. split; [reflexivity|]. split; [intros P F; split; [exact (Forall_inv F)|exact (Forall_inv_tail F)]|]. intros g. reflexivity.
  - destruct (take_first f q) as [[x q']|]; [|cbn [existsb]; now rewrite E].
    destruct IH as (A & B & C & D). split; [exact A|]. split; [cbn [length]; congruence|]. split.
    + intros P F. destruct (C P (Forall_inv_tail F)) as (C1 & C2). split; [exact C1|]. constructor; [exact (Forall_inv F)|exact C2].
    + intros g. cbn [existsb]. rewrite D. destruct (g e), (g x); reflexivity.
Qed.
Lemma build_total n : forall q next buf, Forall lawful q -> Forall writable q -> existsb is_note q = false -> length q <= n -> blk_ok (blk_of buf) ->
  exists o q' next' m, build_loop n false q next buf = Ok (o, q', next ++ next', m) /\ Forall lawful q' /\ Forall lawful next' /\ (existsb is_steal q = false -> q' = []) /\
    existsb is_steal next' = false.
Proof.
  induction n as [|n IH]; intros q next buf HL HW HN LN HK.
  - destruct q; [|cbn in LN; lia]. exists buf, [], [], []. rewrite app_nil_r. auto.
  - destruct q as [|e0 q0]; [exists buf, [], [], []; rewrite app_nil_r; auto|]. cbn [build_loop]. set (q := e0 :: q0) in *. unfold dl_take_item.
    assert (GO : forall e q1 f, fg_live f -> (fg_hdr f = false -> sendable (fg_res f)) -> (forall P, Forall P q -> P e /\ Forall P q1) -> (forall g, existsb g q = g e || existsb g q1) -> length q = S (length q1) ->
       (forall next0 buf0, (match e with
          | DlBroadcast => build_loop n false q1 next0 buf0
          | DlResource p sdu rep => f <- fg_new p sdu rep ;; ' (b, nx, m0) <- put_chunk f buf0 next0 ;; ' (o, q, nx, m) <- build_loop n false q1 nx (Some b) ;; Ok (o, q, nx, m0 ++ m)
          | DlFrag f => ' (b, nx, m0) <- put_chunk f buf0 next0 ;; ' (o, q, nx, m) <- build_loop n false q1 nx (Some b) ;; Ok (o, q, nx, m0 ++ m)
          | DlSteal _ rep => m0 <- mark_opt tx_mark_discarded rep ;; ' (o, q, nx, m) <- build_loop n false q1 next0 buf0 ;; Ok (o, q, nx, m0 ++ m)
          | DlGrant _ _ | DlAck _ => Panic
          end) = (' (b, nx, m0) <- put_chunk f buf0 next0 ;; ' (o, q, nx, m) <- build_loop n false q1 nx (Some b) ;; Ok (o, q, nx, m0 ++ m))) -> is_steal e = false ->
       exists o q' next' m, (match e with
          | DlBroadcast => build_loop n false q1 next buf
          | DlResource p sdu rep => f <- fg_new p sdu rep ;; ' (b, nx, m0) <- put_chunk f buf next ;; ' (o, q, nx, m) <- build_loop n false q1 nx (Some b) ;; Ok (o, q, nx, m0 ++ m)
          | DlFrag f => ' (b, nx, m0) <- put_chunk f buf next ;; ' (o, q, nx, m) <- build_loop n false q1 nx (Some b) ;; Ok (o, q, nx, m0 ++ m)
          | DlSteal _ rep => m0 <- mark_opt tx_mark_discarded rep ;; ' (o, q, nx, m) <- build_loop n false q1 next buf ;; Ok (o, q, nx, m0 ++ m)
          | DlGrant _ _ | DlAck _ => Panic
          end) = Ok (o, q', next ++ next', m) /\ Forall lawful q' /\ Forall lawful next' /\ (existsb is_steal q = false -> q' = []) /\ existsb is_steal next' = false).
    { intros e q1 f FL FS FA EX LE EQ NS. rewrite EQ. clear EQ. destruct (chunk_total f (blk_of buf) FL FS HK) as (dn & f' & blk' & w & EC & O & FL' & LW & LM).
      destruct (blk_step _ _ _ HK O LW LM) as (HK' & _). unfold put_chunk. fold (blk_of buf). rewrite EC. cbn [bind].
      set (nx := if dn then [] else [DlFrag f']).
      destruct (IH q1 (next ++ nx) (Some blk')) as (o & q' & nx' & m & EB & A & B & C & D); [apply (FA lawful HL)|apply (FA writable HW)|specialize (EX is_note); rewrite HN in EX; symmetry in EX; apply orb_false_elim in EX; apply EX|cbn [length] in *; lia|exact HK'|].
      assert (E2 : (if dn then (blk', next, match fg_rep f' with Some t => [t] | None => [] end) else (blk', next ++ [DlFrag f'], [])) = (blk', next ++ nx, if dn then match fg_rep f' with Some t => [t] | None => [] end else [])).
      { unfold nx. destruct dn; [rewrite app_nil_r|]; reflexivity. }
      rewrite E2. rewrite EB. cbn [bind]. exists o, q', (nx ++ nx'). eexists. rewrite app_assoc. split; [reflexivity|]. split; [exact A|].
      split; [apply Forall_app; split; [unfold nx; destruct dn; [constructor|constructor; [exact (FL' eq_refl)|constructor]]|exact B]|].
      split; [intros NST; apply C; specialize (EX is_steal); rewrite NST in EX; symmetry in EX; apply orb_false_elim in EX; apply EX|].
      rewrite existsb_app, D. unfold nx. destruct dn; reflexivity. }
    pose proof (take_first_in is_grant q) as T0. destruct (take_first is_grant q) as [[x q1]|].
    { exfalso. destruct T0 as (A & _ & _ & D). specialize (D is_note). rewrite HN in D. destruct x; try discriminate A. discriminate D. }
    pose proof (take_first_in is_frag q) as T1. destruct (take_first is_frag q) as [[x q1]|].
    { destruct T1 as (A & B & C & D). destruct x as [|a|a g|p sdu rep|f|b rep]; try discriminate A. apply (GO (DlFrag f) q1 f); auto; [exact (proj1 (C lawful HL))|]. intros EH. pose proof (proj1 (C writable HW)) as X. unfold writable in X. cbn [heads] in X. rewrite EH in X. exact X. }
    pose proof (take_first_in is_resource q) as T2. destruct (take_first is_resource q) as [[x q1]|].
    { destruct T2 as (A & B & C & D). destruct x as [|a|a g|p sdu rep|f|b rep]; try discriminate A. destruct (proj1 (C lawful HL)) as (W & P & R). pose proof (proj1 (C writable HW)) as S1.
      apply (GO (DlResource p sdu rep) q1 (mk_fg p false false sdu rep)); auto.
      - unfold fg_live. cbn [fg_done fg_sdu fg_res fg_rep fg_hdr]. auto.
      - intros next0 buf0. unfold fg_new. rewrite pos_ok by assumption. rewrite P, Nat.sub_diag. reflexivity. }
    exists buf, q, [], []. rewrite app_nil_r. split; [reflexivity|]. split; [exact HL|]. split; [constructor|]. split; [|reflexivity].
    intros NS. exfalso. unfold q in *. cbn [existsb] in *. apply orb_false_elim in HN, T1, T2, NS. destruct HN as (HN & _), T1 as (T1 & _), T2 as (T2 & _), NS as (NS & _).
    destruct e0; try discriminate. exact (Forall_inv HL).
Qed.
Lemma build_keeps n : forall q next buf o q' next' m, Forall lawful q -> Forall lawful next -> build_loop n false q next buf = Ok (o, q', next', m) -> Forall lawful q' /\ Forall lawful next'.
Proof.
  induction n as [|n IH]; intros q next buf o q' next' m HL HX E.
  - destruct q; [|discriminate E]. cbn in E. assert (q' = [] /\ next' = next) as (-> & ->) by (split; congruence). auto.
  - destruct q as [|e0 q0]; [cbn in E; assert (q' = [] /\ next' = next) as (-> & ->) by (split; congruence); auto|]. cbn [build_loop] in E. set (q := e0 :: q0) in *. unfold dl_take_item in E.
    assert (STAY : Ok (buf, q, next, []) = Ok (o, q', next', m) -> Forall lawful q' /\ Forall lawful next') by (intros X; assert (q' = q /\ next' = next) as (-> & ->) by (split; congruence); auto).
    assert (GO : forall f q1 buf0, Forall lawful q1 -> fg_live f -> (' (b, nx, m0) <- put_chunk f buf0 next ;; ' (o, q, nx, m) <- build_loop n false q1 nx (Some b) ;; Ok (o, q, nx, m0 ++ m)) = Ok (o, q', next', m) -> Forall lawful q' /\ Forall lawful next').
    { intros f q1 buf0 H1 FL X. bi X. destruct x as [[b nx] m0]. bi X. destruct x as [[[o1 q2] nx2] m1]. assert (q2 = q' /\ nx2 = next') as (-> & ->) by (split; congruence). clear X.
      apply (IH _ _ _ _ _ _ _ H1) in E1; [exact E1|]. unfold put_chunk in E0. bi E0. destruct x as [[dn f'] b1]. destruct dn; [assert (nx = next) as -> by congruence; exact HX|].
      assert (nx = next ++ [DlFrag f']) as -> by congruence. apply Forall_app. split; [exact HX|]. constructor; [exact (chunk_keeps _ _ _ _ FL E2)|constructor]. }
    pose proof (take_first_in is_grant q) as T0. destruct (take_first is_grant q) as [[x q1]|].
    { destruct T0 as (A & _ & C & _). destruct x; try discriminate A. discriminate E. }
    pose proof (take_first_in is_frag q) as T1. destruct (take_first is_frag q) as [[x q1]|].
    { destruct T1 as (A & B & C & D). destruct x as [|a|a g|p sdu rep|f|b rep]; try discriminate A. destruct (C lawful HL) as (C1 & C2). exact (GO _ _ _ C2 C1 E). }
    pose proof (take_first_in is_resource q) as T2. destruct (take_first is_resource q) as [[x q1]|]; [|exact (STAY E)].
    destruct T2 as (A & B & C & D). destruct x as [|a|a g|p sdu rep|f|b rep]; try discriminate A. destruct (C lawful HL) as ((W & P & R) & C2).
    bi E. unfold fg_new in E0. bi E0. bi E0. assert (EF : x = mk_fg p false false sdu rep) by congruence. rewrite EF in E. apply (GO _ _ _ C2) in E; [exact E|]. unfold fg_live. cbn [fg_done fg_sdu fg_res fg_rep fg_hdr]. auto.
Qed.
Lemma signalling_keeps k f18 s s' q o m : four s -> 1 <= k <= 4 -> ds_next s = [] -> get_q k s = Ok q -> Forall lawful q -> dl_build_signalling k f18 s = Ok (o, s', m) -> 
  exists q2 l, s' = set_next l (put_q k q2 s) /\ Forall lawful q2.
Proof.
  intros F4 K NX EQ HL E. unfold dl_build_signalling in E. rewrite EQ in E. cbn [bind] in E. rewrite NX in E. bi E. destruct x as [[[o1 q1] nx] m1].
  assert (KP : Forall lawful q1 /\ Forall lawful nx).
  { destruct f18; [|exact (build_keeps _ _ _ _ _ _ _ _ HL (Forall_nil _) E0)].
    assert (BL : build_loop (length q) true q [] None = Ok (None, q, [], [])) by (destruct q; reflexivity). rewrite BL in E0. assert (q1 = q /\ nx = []) as (-> & ->) by (split; congruence). auto. }
  destruct nx as [|e nx].
  - exists q1, []. split; [congruence|apply KP].
  - bi E. exists (e :: nx), q1. split; [congruence|apply KP].
Qed.
Lemma signalling_total k f18 s q : four s -> 1 <= k <= 4 -> ds_next s = [] -> get_q k s = Ok q -> Forall lawful q -> Forall writable q -> existsb is_note q = false -> (f18 = false -> existsb is_steal q = false) ->
  exists o q2 m, dl_build_signalling k f18 s = Ok (o, set_next [] (put_q k q2 s), m).
Proof.
  intros F4 K NX EQ HL HW HN HS. unfold dl_build_signalling. rewrite EQ. cbn [bind]. rewrite NX. destruct f18.
  - exists None, q, []. destruct q as [|e q]; [reflexivity|]. cbn [length build_loop dl_take_item bind]. reflexivity.
  - destruct (build_total (length q) q [] None HL HW HN (le_n _) blk_new_ok) as (o & q' & nx & m & -> & A & B & C & D). cbn [bind app]. rewrite (C (HS eq_refl)).
    destruct nx as [|e nx]; [exists o, [], m; reflexivity|]. exists o, (e :: nx), m. reflexivity.
Qed.
