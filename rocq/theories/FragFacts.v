(** Downlink fragmentation: the top-level statements. *)
From Coq Require Import Arith.
From Verif Require Import Base BitsLib BitBuffer BitBufferProofs BitBufferOps Codec CodecProofs TypedFields MacFields MacPdus Layout LayoutProofs
  MacSpec MacPdusProofs FillBits BsFrag FragSpec FillProofs FragProofs TxReceipt.
Open Scope N_scope.

Lemma fg_new_inv r sdu rep : mr_valid r = true -> wf sdu -> bpos sdu = bstart sdu -> pending rep ->
  (mr_is_null r = true -> window sdu = []) ->
  fg_new r sdu rep = Ok (mk_fg r false false sdu rep) /\ fg_inv (mk_fg r false false sdu rep) /\ remaining sdu = window sdu.
Proof.
  intros V W P R N. assert (E : remaining sdu = window sdu) by (unfold remaining, window; now rewrite P).
  split; [unfold fg_new; rewrite pos_ok, P, Nat.sub_diag by assumption; reflexivity|]. split; [|assumption].
  unfold fg_inv; cbn [fg_done fg_sdu fg_res fg_rep fg_hdr]. split; [reflexivity|]. split; [assumption|]. split; [assumption|]. split; [assumption|].
  split; [intros _; assumption|]. intros H. rewrite E. auto.
Qed.

Lemma fragmentation_exact r sdu rep blks :
  mr_valid r = true -> wf sdu -> bpos sdu = bstart sdu -> pending rep -> (mr_is_null r = true -> window sdu = []) ->
  Forall block_ok blks -> Forall (fun b => whole_octets (width (mr_layout r)) (length (window sdu)) (length (remaining b))) blks ->
  exists f out dn f', fg_new r sdu rep = Ok f /\ fg_run f blks = Ok (out, dn, f') /\
    Forall (fun o => (0 < length (fst o) <= snd o)%nat) out /\
    (dn = true -> (forall slots, Forall2 arrives out slots -> rx_all slots = Some (window sdu)) /\ transmitted rep (fg_rep f')).
Proof.
  intros V W P R N B O. destruct (fg_new_inv r sdu rep V W P R N) as (E & I & ER).
  destruct (run_spec blks (mk_fg r false false sdu rep) I B) as (out & dn & f' & E1 & F1 & D1 & H1 & H2).
  { intros _. cbn [fg_sdu]. rewrite ER. unfold hdr_bits. cbn [fg_res]. exact O. }
  exists (mk_fg r false false sdu rep), out, dn, f'. split; [assumption|]. split; [assumption|]. split; [assumption|].
  intros H. destruct (H1 H) as (H3 & H4). cbn [fg_hdr fg_sdu fg_rep] in *. rewrite ER in H3. auto.
Qed.

(** Termination *)
Definition useful (h : nat) (b : bitbuf) : bool := (Nat.max 32 h <=? length (remaining b))%nat.
Definition need (f : fragger) : nat := ((if fg_hdr f then 0 else 1) + (length (remaining (fg_sdu f)) + 11) / 12 + 1)%nat.
Lemma run_terminates blks : forall f, fg_inv f -> Forall block_ok blks ->
  (fg_hdr f = false -> Forall (fun b => whole_octets (hdr_bits f) (length (remaining (fg_sdu f))) (length (remaining b))) blks) ->
  (need f <= length (filter (useful (hdr_bits f)) blks))%nat ->
  exists out f', fg_run f blks = Ok (out, true, f').
Proof.
  induction blks as [|b t IH]; intros f I B WO HN.
  - cbn [filter length] in HN. unfold need in HN. lia.
  - inversion B as [|? ? Bb Bt]; subst. cbn [fg_run].
    destruct (next_chunk_spec f b I Bb) as (dn & f1 & b1 & w & E & O & D1 & I1 & HB1 & REP1 & C1).
    { intros H. specialize (WO H). inversion WO; subst; assumption. }
    rewrite E. cbn [bind]. cbv zeta. destruct dn; [eexists _, _; reflexivity|]. specialize (I1 eq_refl).
    assert (WO1 : fg_hdr f1 = false -> Forall (fun b => whole_octets (hdr_bits f1) (length (remaining (fg_sdu f1))) (length (remaining b))) t).
    { intros H1. destruct C1 as [(_ & _ & ES & EHd & _)|(_ & Hh & _)]; [|congruence]. rewrite HB1, ES. rewrite EHd in H1. specialize (WO H1). inversion WO; subst; assumption. }
    destruct (IH f1 I1 Bt WO1) as (out & f2 & E2).
    + rewrite HB1. cbn [filter] in HN. destruct (useful (hdr_bits f) b) eqn:EU; cbn [length] in HN.
      * apply Nat.leb_le in EU.
        assert (need f1 < need f)%nat; [|lia]. unfold need. destruct C1 as [(_ & _ & ES & EHd & G1 & G2)|(Nw & Hh & Lw & Al & d & ED & _ & PR & _)].
        -- destruct (fg_hdr f); [specialize (G2 eq_refl); lia|specialize (G1 eq_refl); lia].
        -- rewrite Hh. assert (HL : length (remaining (fg_sdu f)) = (length d + length (remaining (fg_sdu f1)))%nat) by (rewrite ED, app_length; reflexivity).
           destruct (fg_hdr f).
           ++ destruct (PR eq_refl eq_refl) as [P12|(PE & PN)].
              ** pose proof (Nat.div_le_mono (length (remaining (fg_sdu f1)) + 11 + 1 * 12) (length (remaining (fg_sdu f)) + 11) 12 ltac:(lia) ltac:(lia)) as Q.
                 rewrite Nat.div_add in Q by lia. lia.
              ** rewrite PE. cbn [length]. change ((0 + 11) / 12)%nat with 0%nat. destruct (remaining (fg_sdu f)); [congruence|]. cbn [length].
                 pose proof (Nat.div_le_mono 12 (S (length l) + 11) 12 ltac:(lia) ltac:(lia)) as Q. change (12 / 12)%nat with 1%nat in Q. lia.
           ++ pose proof (Nat.div_le_mono (length (remaining (fg_sdu f1)) + 11) (length (remaining (fg_sdu f)) + 11) 12 ltac:(lia) ltac:(lia)) as Q. lia.
      * assert (need f1 <= need f)%nat; [|lia]. unfold need. destruct C1 as [(_ & _ & ES & EHd & G1 & G2)|(Nw & Hh & Lw & Al & d & ED & _ & PR & _)].
        -- rewrite ES, EHd. lia.
        -- rewrite Hh. assert (HL : length (remaining (fg_sdu f)) = (length d + length (remaining (fg_sdu f1)))%nat) by (rewrite ED, app_length; reflexivity).
           pose proof (Nat.div_le_mono (length (remaining (fg_sdu f1)) + 11) (length (remaining (fg_sdu f)) + 11) 12 ltac:(lia) ltac:(lia)) as Q. destruct (fg_hdr f); lia.
    + rewrite E2. cbn [bind]. eexists _, _. reflexivity.
Qed.
Lemma fragmentation_terminates r sdu rep blks :
  mr_valid r = true -> wf sdu -> bpos sdu = bstart sdu -> pending rep -> (mr_is_null r = true -> window sdu = []) ->
  Forall block_ok blks -> Forall (fun b => whole_octets (width (mr_layout r)) (length (window sdu)) (length (remaining b))) blks ->
  (2 + (length (window sdu) + 11) / 12 <= length (filter (fun b => (32 <=? length (remaining b)) && (width (mr_layout r) <=? length (remaining b)))%nat blks))%nat ->
  exists f out f', fg_new r sdu rep = Ok f /\ fg_run f blks = Ok (out, true, f').
Proof.
  intros V W P R N B O HN. destruct (fg_new_inv r sdu rep V W P R N) as (E & I & ER).
  destruct (run_terminates blks (mk_fg r false false sdu rep) I B) as (out & f' & E1).
  - intros _. cbn [fg_sdu]. rewrite ER. unfold hdr_bits. cbn [fg_res]. exact O.
  - unfold need. cbn [fg_hdr fg_sdu]. rewrite ER.
    assert (EF : filter (useful (hdr_bits (mk_fg r false false sdu rep))) blks = filter (fun b => (32 <=? length (remaining b)) && (width (mr_layout r) <=? length (remaining b)))%nat blks).
    { apply filter_ext. intros a. unfold useful, hdr_bits. cbn [fg_res].
      destruct (Nat.leb_spec (Nat.max 32 (width (mr_layout r))) (length (remaining a))), (Nat.leb_spec 32 (length (remaining a))), (Nat.leb_spec (width (mr_layout r)) (length (remaining a))); cbn [andb]; try reflexivity; lia. }
    rewrite EF. lia.
  - exists (mk_fg r false false sdu rep), out, f'. auto.
Qed.

(** When the fragmenter is dropped the report says what happened. *)
Lemma fragmentation_report r sdu rep blks :
  mr_valid r = true -> wf sdu -> bpos sdu = bstart sdu -> pending rep -> (mr_is_null r = true -> window sdu = []) ->
  Forall block_ok blks -> Forall (fun b => whole_octets (width (mr_layout r)) (length (window sdu)) (length (remaining b))) blks ->
  exists f out dn f' rep', fg_new r sdu rep = Ok f /\ fg_run f blks = Ok (out, dn, f') /\ fg_drop f' = Ok rep' /\
    if dn then transmitted rep rep' else discarded rep rep'.
Proof.
  intros V W P R N B O. destruct (fg_new_inv r sdu rep V W P R N) as (E & I & ER).
  destruct (run_spec blks (mk_fg r false false sdu rep) I B) as (out & dn & f' & E1 & F1 & D1 & H1 & H2).
  { intros _. cbn [fg_sdu]. rewrite ER. unfold hdr_bits. cbn [fg_res]. exact O. }
  exists (mk_fg r false false sdu rep), out, dn, f'. unfold fg_drop. rewrite D1. destruct dn.
  - exists (fg_rep f'). split; [assumption|]. split; [assumption|]. split; [destruct (fg_rep f'); reflexivity|]. exact (proj2 (H1 eq_refl) R).
  - destruct (H2 eq_refl) as ((_ & _ & _ & Ip & _) & _). rewrite (run_rep _ _ _ _ E1) in *. cbn [fg_rep] in *. destruct rep as [t|]; cbn [negb].
    + cbn [pending] in Ip. unfold tx_get_state. rewrite Ip. cbn [tx_from_raw tx_raw]. unfold tx_mark_discarded, tx_mark. rewrite Ip, Nat.eqb_refl. cbn [bind].
      eexists. split; [assumption|]. split; [assumption|]. split; [reflexivity|]. reflexivity.
    + exists None. split; [assumption|]. split; [assumption|]. split; reflexivity.
Qed.

(** A PDU that ends in the incomplete last octet of the slot: 43 header bits and 225 SDU bits exactly fill a
    268-bit slot, but the length indication says 33 octets (264 bits), so the receiver loses four bits. *)
Definition lost_hdr : mac_resource := mk_mres false 0 0 false 1 (Some (mk_addr 1000001 false SsiIssi)) None None None None None.
Definition lost_sdu : list bool := repeat true 225%nat.
Definition lost_buf : bitbuf := match bb_from_bitstr lost_sdu with Ok b => b | _ => bb_new 0 end.
Definition lost_run := match fg_new lost_hdr lost_buf None with Ok f => fg_run f [bb_new 268] | _ => Panic end.
Lemma last_octet_lost :
  mr_valid lost_hdr = true /\ wf lost_buf /\ window lost_buf = (repeat true 225%nat) /\ block_ok (bb_new 268) /\ exists w f', lost_run = Ok ([(w, 268%nat)], true, f') /\ length w = 268%nat /\ rx_all [w] = Some (repeat true 221%nat).
Proof.
  split; [vm_compute; reflexivity|].
  destruct (from_bitstr_spec lost_sdu) as (b & E & W & _ & _ & EW). unfold lost_buf. rewrite E. split; [assumption|]. split; [exact EW|].
  split; [split; [apply wf_new|]; split; [reflexivity|]; split; [vm_compute; lia|left; vm_compute; reflexivity]|].
  exists (match lost_run with Ok ([(w, _)], _, _) => w | _ => [] end), (match lost_run with Ok (_, _, f) => f | _ => mk_fg lost_hdr false false lost_buf None end).
  split; [vm_compute; reflexivity|]. split; vm_compute; reflexivity.
Qed.
