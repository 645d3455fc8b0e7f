(** How a received block is taken apart: final lemmas. *)
From Coq Require Import Arith.
From Verif Require Import Base BitsLib BitBuffer BitBufferProofs BitBufferOps Codec CodecProofs TypedFields MacFields MacPdus Layout LayoutProofs MacSpec MacPdusProofs MacFacts FillProofs
  TdmaTime TdmaTimeProofs Defrag DefragSpec DefragProofs FragSpec FragProofs UlSched DlSched UmacPrecomps UmacBs UlBlockSpec UlBlockProofs UlBlockPdu UmacSched.
From Verif Require DlFacts.
Open Scope nat_scope.

(** * What a radio sends *)
Lemma unfill_pad sdu k : unfill (0 <? k) (sdu ++ pad k) = sdu.
Proof.
  unfold unfill. destruct (Nat.ltb_spec 0 k) as [H|H].
  - rewrite existsb_app. destruct k as [|k]; [lia|]. cbn [pad existsb orb andb]. rewrite Bool.orb_true_r. exact (strip_pad sdu (S k) H).
  - assert (k = 0) as -> by lia. cbn [pad andb]. apply app_nil_r.
Qed.
Lemma sdu_sent hdr sdu k rest ext : ext = length hdr + length sdu + k -> sdu_of (0 <? k) (length hdr) ext ((hdr ++ sdu ++ pad k) ++ rest) = sdu.
Proof.
  intros ->. unfold sdu_of. replace (length hdr + length sdu + k) with (length (hdr ++ sdu ++ pad k)) by (rewrite !app_length, pad_length; lia).
  rewrite firstn_app, Nat.sub_diag, firstn_O, app_nil_r, firstn_all, skipn_app, skipn_all, Nat.sub_diag. cbn [skipn app]. apply unfill_pad.
Qed.
Lemma total hdr sdu k : length (hdr ++ sdu ++ pad k) = length hdr + length sdu + k.
Proof. rewrite !app_length, pad_length. lia. Qed.
Lemma min_sent hdr sdu k (rest : list bool) ext : ext = length hdr + length sdu + k -> Nat.min ext (length ((hdr ++ sdu ++ pad k) ++ rest)) = ext.
Proof. intros ->. rewrite app_length, total. lia. Qed.

Lemma data_starts p : exists x t, enc (mdata_layout p) = false :: false :: x :: t.
Proof. unfold mdata_layout, enc. cbn [app flat_map]. destruct (mu_fill p); cbn; eauto. Qed.
Lemma acc_starts p : exists x y t, enc (macc_layout p) = false :: x :: y :: t.
Proof. unfold macc_layout, enc. cbn [app flat_map]. destruct (mu_fill p), (mu_enc p); cbn; eauto. Qed.
Lemma data_dispatch c p l : (c = UcSchF \/ c = UcStch) -> first_pdu c (enc (mdata_layout p) ++ l) = data_pdu (enc (mdata_layout p) ++ l).
Proof. intros H. destruct (data_starts p) as (x & t & ->). destruct H as [->| ->]; reflexivity. Qed.
Lemma acc_dispatch p l : first_pdu UcSchHu (enc (macc_layout p) ++ l) = access_pdu (enc (macc_layout p) ++ l).
Proof. destruct (acc_starts p) as (x & y & t & ->). reflexivity. Qed.
Lemma data_parse p l : mdata_valid p = true -> parse mdata_read (enc (mdata_layout p) ++ l) = Some (p, length (enc (mdata_layout p))).
Proof. intros V. apply parse_reads. exact (proj2 (mdata_carries p V)). Qed.
Lemma acc_parse p l : macc_valid p = true -> parse macc_read (enc (macc_layout p) ++ l) = Some (p, length (enc (macc_layout p))).
Proof. intros V. apply parse_reads. exact (proj2 (macc_carries p V)). Qed.
Lemma valid_tail o p n : mu_tail_valid o p = true -> mu_len p = Some n -> mu_req p = None.
Proof. unfold mu_tail_valid. intros H E. rewrite E in H. destruct (mu_frag p), (mu_req p); congruence. Qed.

Lemma sent_ok c pdu rest acts next : sent c pdu rest acts next -> first_pdu c (pdu ++ rest) = Acts acts next /\ (forall n, next = Some n -> n = length pdu).
Proof.
  intros H. destruct H as [p a n sdu k rest C V EN AD LN B F T NE|p a q first sdu k C V EN AD LN FR RQ F NE|p a n sdu k rest C V EN AD LN B F T NE|p a q first sdu k C V EN AD LN FR RQ F NE
    |p a sdu k C V EN AD LN FR RQ F NE|sdu k C|p n sdu k rest C V LN F T|p n sdu k rest C V LN F T|p q sdu k C V RQ F|p a rest C V AD LN|p a rest C V AD LN|sdu C NE].
  - split; [|intros n0 E; injection E as <-; rewrite total; exact T]. rewrite <- app_assoc, data_dispatch by assumption. unfold data_pdu. rewrite data_parse, AD, LN, EN by assumption.
    destruct (N.eqb_spec n 0); [lia|]. destruct (N.leb_spec 2 n); [|lia]. destruct (N.leb_spec n 55); [|lia]. cbn [andb]. rewrite app_assoc, (min_sent _ _ _ _ _ T).
    destruct (Nat.ltb_spec (8 * N.to_nat n) (length (enc (mdata_layout p)))); [lia|]. rewrite F, (sdu_sent _ _ _ _ _ T), (valid_tail false p n); [destruct sdu; [congruence|reflexivity]| |assumption].
    apply Bool.andb_true_iff in V. apply V.
  - split; [|intros n0 E; injection E as <-; reflexivity]. rewrite <- app_assoc, data_dispatch by assumption. unfold data_pdu. rewrite data_parse, AD, LN, EN, FR, RQ by assumption.
    rewrite app_assoc, app_nil_r. rewrite F. pose proof (total (enc (mdata_layout p)) sdu k) as T. pose proof (sdu_sent (enc (mdata_layout p)) sdu k [] _ T) as SD. rewrite app_nil_r in SD. rewrite SD.
    destruct (Nat.ltb_spec (length (enc (mdata_layout p) ++ sdu ++ pad k)) (length (enc (mdata_layout p)))); [lia|].
    destruct first; [reflexivity|]. destruct sdu; [congruence|reflexivity].
  - subst c. split; [|intros n0 E; injection E as <-; rewrite total; exact T]. rewrite <- app_assoc, acc_dispatch. unfold access_pdu. rewrite acc_parse, AD, LN, EN by assumption.
    destruct (N.eqb_spec n 0); [lia|]. rewrite app_assoc, (min_sent _ _ _ _ _ T).
    destruct (Nat.ltb_spec (8 * N.to_nat n) (length (enc (macc_layout p)))); [lia|]. rewrite F, (sdu_sent _ _ _ _ _ T), (valid_tail true p n); [destruct sdu; [congruence|reflexivity]| |assumption].
    apply Bool.andb_true_iff in V. apply V.
  - subst c. split; [|intros n0 E; injection E as <-; reflexivity]. rewrite <- app_assoc, acc_dispatch. unfold access_pdu. rewrite acc_parse, AD, LN, EN, FR, RQ by assumption.
    rewrite app_assoc, app_nil_r. rewrite F. pose proof (total (enc (macc_layout p)) sdu k) as T. pose proof (sdu_sent (enc (macc_layout p)) sdu k [] _ T) as SD. rewrite app_nil_r in SD. rewrite SD.
    destruct (Nat.ltb_spec (length (enc (macc_layout p) ++ sdu ++ pad k)) (length (enc (macc_layout p)))); [lia|].
    destruct first; [reflexivity|]. destruct sdu; [congruence|reflexivity].
  - subst c. split; [|intros n0 E; injection E as <-; reflexivity]. rewrite <- app_assoc, acc_dispatch. unfold access_pdu. rewrite acc_parse, AD, LN, EN, FR, RQ by assumption.
    rewrite app_assoc, app_nil_r. rewrite F. pose proof (total (enc (macc_layout p)) sdu k) as T. pose proof (sdu_sent (enc (macc_layout p)) sdu k [] _ T) as SD. rewrite app_nil_r in SD. rewrite SD.
    destruct (Nat.ltb_spec (length (enc (macc_layout p) ++ sdu ++ pad k)) (length (enc (macc_layout p)))); [lia|]. destruct sdu; [congruence|reflexivity].
  - split; [|discriminate]. rewrite app_nil_r.
    assert (D : first_pdu c (enc (mfrag_layout (0 <? k)) ++ sdu ++ pad k) = frag_pdu (enc (mfrag_layout (0 <? k)) ++ sdu ++ pad k)) by (destruct C as [->| ->], (0 <? k); reflexivity).
    rewrite D. unfold frag_pdu. rewrite (parse_reads _ _ _ _ (proj2 (mfrag_carries (0 <? k)))).
    pose proof (sdu_sent (enc (mfrag_layout (0 <? k))) sdu k [] _ (total _ _ _)) as SD. rewrite app_nil_r in SD. now rewrite SD.
  - split; [|intros n0 E; injection E as <-; rewrite total; exact T].
    assert (RQ : eu_req p = None) by (unfold meul_valid in V; rewrite LN in V; destruct (eu_req p); congruence).
    assert (ST : exists x t, enc (meul_layout p) = false :: true :: true :: x :: t) by (unfold meul_layout, enc; cbn [app flat_map]; cbn; eauto).
    assert (D : first_pdu c ((enc (meul_layout p) ++ sdu ++ pad k) ++ rest) = endul_pdu ((enc (meul_layout p) ++ sdu ++ pad k) ++ rest)) by (destruct ST as (x & t & ->); destruct C as [->| ->]; reflexivity).
    rewrite D. unfold endul_pdu. rewrite <- app_assoc. rewrite (parse_reads _ _ _ _ (proj2 (meul_carries p V RQ))). rewrite LN, RQ, F, app_assoc, (min_sent _ _ _ _ _ T). unfold end_pdu.
    destruct (Nat.ltb_spec (8 * N.to_nat n) (length (enc (meul_layout p)))); [lia|]. now rewrite (sdu_sent _ _ _ _ _ T).
  - subst c. split; [|intros n0 E; injection E as <-; rewrite total; exact T].
    assert (RQ : eh_req p = None) by (unfold mehu_valid in V; apply Bool.andb_true_iff in V; destruct V as (_ & V); rewrite LN in V; destruct (eh_req p); [discriminate V|reflexivity]).
    assert (ST : exists x y t, enc (mehu_layout p) = true :: x :: y :: t) by (unfold mehu_layout, enc; rewrite LN; cbn [app flat_map]; cbn; eauto).
    assert (D : first_pdu UcSchHu ((enc (mehu_layout p) ++ sdu ++ pad k) ++ rest) = endhu_pdu ((enc (mehu_layout p) ++ sdu ++ pad k) ++ rest)) by (destruct ST as (x & y & t & ->); reflexivity).
    assert (HL : 0 < length (enc (mehu_layout p))) by (destruct ST as (x & y & t & ->); cbn [length]; lia).
    rewrite D. unfold endhu_pdu. rewrite <- app_assoc. rewrite (parse_reads _ _ _ _ (proj2 (mehu_carries p V))). rewrite LN, RQ, F, app_assoc, (min_sent _ _ _ _ _ T). unfold end_pdu.
    destruct (N.eqb_spec n 0); [lia|]. destruct (Nat.ltb_spec (8 * N.to_nat n) (length (enc (mehu_layout p)))); [lia|]. now rewrite (sdu_sent _ _ _ _ _ T).
  - subst c. split; [|intros n0 E; injection E as <-; reflexivity]. rewrite app_nil_r.
    assert (LN : eh_len p = None) by (unfold mehu_valid in V; apply Bool.andb_true_iff in V; destruct V as (_ & V); rewrite RQ in V; destruct (eh_len p); [discriminate V|reflexivity]).
    assert (ST : exists x y t, enc (mehu_layout p) = true :: x :: y :: t) by (unfold mehu_layout, enc; rewrite LN, RQ; cbn [app flat_map]; cbn; eauto).
    assert (D : first_pdu UcSchHu (enc (mehu_layout p) ++ sdu ++ pad k) = endhu_pdu (enc (mehu_layout p) ++ sdu ++ pad k)) by (destruct ST as (x & y & t & ->); reflexivity).
    rewrite D. unfold endhu_pdu. rewrite (parse_reads _ _ _ _ (proj2 (mehu_carries p V))). rewrite LN, RQ, F. unfold end_pdu. pose proof (total (enc (mehu_layout p)) sdu k) as T.
    destruct (Nat.ltb_spec (length (enc (mehu_layout p) ++ sdu ++ pad k)) (length (enc (mehu_layout p)))); [lia|].
    pose proof (sdu_sent (enc (mehu_layout p)) sdu k [] _ T) as SD. rewrite app_nil_r in SD. now rewrite SD.
  - split; [|discriminate]. rewrite data_dispatch by assumption. unfold data_pdu. rewrite data_parse, AD, LN by assumption. reflexivity.
  - subst c. split; [|discriminate]. rewrite acc_dispatch. unfold access_pdu. rewrite acc_parse, AD, LN by assumption. reflexivity.
  - subst c. split; [|discriminate]. rewrite app_nil_r. assert (D : first_pdu UcStch (enc (usignal_layout false) ++ sdu) = signal_pdu (enc (usignal_layout false) ++ sdu)) by reflexivity.
    rewrite D. unfold signal_pdu. rewrite (parse_reads _ _ _ _ (proj2 (usignal_carries false))), skipn_app, skipn_all, Nat.sub_diag. cbn [skipn app]. destruct sdu; [congruence|reflexivity].
Qed.

(** * The effects of several PDUs *)
Lemma all_app_panic i a b u : does_all i a u Panic -> does_all i (a ++ b) u Panic.
Proof.
  intros H. remember Panic as r eqn:ER. induction H as [u|x l u H|x l u u1 o1 H|x l u u1 o1 H r HR IH]; try discriminate ER.
  - cbn [app]. now apply da_panic.
  - destruct r as [[[v o] c]| |]; try discriminate ER. specialize (IH eq_refl). exact (da_next i x (l ++ b) u u1 o1 H Panic IH).
Qed.
Lemma all_app_stop i a b u u' o : does_all i a u (Ok (u', o, false)) -> does_all i (a ++ b) u (Ok (u', o, false)).
Proof.
  intros H. remember (Ok (u', o, false)) as r eqn:ER. revert o ER. induction H as [u|x l u H|x l u u1 o1 H|x l u u1 o1 H r HR IH]; intros o ER; try discriminate ER.
  - injection ER as <- <-. cbn [app]. now apply da_stop.
  - destruct r as [[[v o2] c]| |]; try discriminate ER. cbn [bind] in ER. injection ER as -> <- ->. specialize (IH o2 eq_refl).
    exact (da_next i x (l ++ b) u u1 o1 H (Ok (u', o2, false)) IH).
Qed.
Lemma all_app_next i a b u u' o r : does_all i a u (Ok (u', o, true)) -> does_all i b u' r -> does_all i (a ++ b) u (' (v, o', c) <- r ;; Ok (v, o ++ o', c)).
Proof.
  intros H HB. remember (Ok (u', o, true)) as r0 eqn:ER. revert o ER. induction H as [u|x l u H|x l u u1 o1 H|x l u u1 o1 H r0 HR IH]; intros o ER; try discriminate ER.
  - injection ER as <- <-. cbn [app]. rewrite wrap_nil. exact HB.
  - destruct r0 as [[[v o2] c]| |]; try discriminate ER. cbn [bind] in ER. injection ER as -> <- ->. specialize (IH o2 eq_refl).
    pose proof (da_next i x (l ++ b) u u1 o1 H _ IH) as X. destruct r as [[[v3 o3] c3]| |]; cbn [bind] in *; try exact X. now rewrite <- app_assoc.
Qed.
Definition unflag (r : res (umac * list um_out * bool)) : res (umac * list um_out) := ' (u, o, _) <- r ;; Ok (u, o).
Lemma block_sent_ok i l plan u r : block_sent (tv_chan i) l plan -> heard i l u r -> exists q, does_all i plan u q /\ r = unflag q.
Proof.
  intros B. revert u r. induction B as [pdu rest acts H|pdu rest acts n H L|pdu rest acts n more H L B IH]; intros u r HH; destruct (sent_ok _ _ _ _ _ H) as (EP & EL).
  - inversion HH as [l u1 E1|l u1 a m E1 D|l u1 a m u2 o c E1 D Z|l u1 a m u2 o E1 D Z|l u1 a m u2 o r1 E1 D Z HR]; subst; rewrite EP in E1; try discriminate E1; injection E1 as <- <-; try discriminate.
    + exists Panic. now split.
    + exists (Ok (u2, o, c)). now split.
  - specialize (EL n eq_refl). subst n.
    inversion HH as [l u1 E1|l u1 a m E1 D|l u1 a m u2 o c E1 D Z|l u1 a m u2 o E1 D Z|l u1 a m u2 o r1 E1 D Z HR]; subst; rewrite EP in E1; try discriminate E1.
    + injection E1 as <- <-. exists Panic. now split.
    + injection E1 as <- <-. exists (Ok (u2, o, c)). now split.
    + injection E1 as <- <-. exists (Ok (u2, o, true)). now split.
    + injection E1 as <- <-. rewrite skipn_app, skipn_all, Nat.sub_diag in Z. cbn [skipn app] in Z. lia.
  - specialize (EL n eq_refl). subst n. assert (SK : skipn (length pdu) (pdu ++ rest) = rest) by (rewrite skipn_app, skipn_all, Nat.sub_diag; reflexivity).
    inversion HH as [l u1 E1|l u1 a m E1 D|l u1 a m u2 o c E1 D Z|l u1 a m u2 o E1 D Z|l u1 a m u2 o r1 E1 D Z HR]; subst; rewrite EP in E1; try discriminate E1.
    + injection E1 as <- <-. exists Panic. split; [now apply all_app_panic|reflexivity].
    + injection E1 as <- <-. destruct Z as [->|Z]; [|discriminate Z]. exists (Ok (u2, o, false)). split; [now apply all_app_stop|reflexivity].
    + injection E1 as <- <-. rewrite SK in Z. lia.
    + injection E1 as <- <-. rewrite SK in HR. destruct (IH u2 r1 HR) as (q & DQ & ->). exists (' (v, o', c) <- q ;; Ok (v, o ++ o', c)). split; [now apply all_app_next with (u' := u2)|].
      destruct q as [[[v o'] c]| |]; reflexivity.
Qed.
(** Whole SDUs only. *)
Definition is_sdu_of (i : tmv_ind) (x : tetra_addr * list bool) (o : um_out) : Prop :=
  exists b, wf b /\ bpos b = bstart b /\ window b = snd x /\ o = OutSdu (tv_time i) b (fst x) (tv_scr i).
Lemma sdus_only i xs : forall u q, does_all i (map (fun x => ASdu (fst x) (snd x)) xs) u q -> exists outs, q = Ok (u, outs, true) /\ Forall2 (is_sdu_of i) xs outs.
Proof.
  induction xs as [|x xs IH]; intros u q H; cbn [map] in H.
  - inversion H; subst. exists []. split; [reflexivity|constructor].
  - inversion H as [|? ? ? D|? ? ? u1 o1 D|? ? ? u1 o1 D r HR]; subst; cbn [does] in D; destruct D as (b & W & P & EW & D); try discriminate D.
    injection D as -> ->. destruct (IH _ _ HR) as (outs & -> & F). exists (OutSdu (tv_time i) b (fst x) (tv_scr i) :: outs). split; [reflexivity|]. constructor; [exists b; auto|exact F].
Qed.

(** * Reachable states *)
(** The upper MAC after any history: it was started, had a first tick, then anything. *)
Definition reached (c : cell_cfg) (u : umac) : Prop := exists connected u0 cn t evs log,
  umac_new c connected = Ok u0 /\ vtime t /\ Forall ev_fine evs /\ um_run c (UeTick cn t :: evs) u0 = Ok (u, log).
Lemma reached_sound c u : reached c u -> sound u.
Proof. intros (cn0 & u0 & cn & t & evs & log & A & B & C & D). exact (history_sound _ _ _ _ _ _ _ _ A B C D). Qed.
Lemma block_heard c u i pdu : reached c u -> wf pdu -> bpos pdu = bstart pdu -> vtime (tv_time i) -> on_channel i = true ->
  exists r, rx_tmv_unitdata_ind i pdu u = r /\ heard i (window pdu) u r.
Proof. intros R W P V C. destruct (block_ok i pdu u W P (reached_sound c u R) V C) as (r & E & H & _). eauto. Qed.
Lemma block_as_sent c u i pdu plan : reached c u -> wf pdu -> bpos pdu = bstart pdu -> vtime (tv_time i) -> on_channel i = true ->
  block_sent (tv_chan i) (window pdu) plan -> exists q, does_all i plan u q /\ rx_tmv_unitdata_ind i pdu u = unflag q.
Proof.
  intros R W P V C B. destruct (block_heard c u i pdu R W P V C) as (r & E & H). destruct (block_sent_ok _ _ _ _ _ B H) as (q & D & ->). eauto.
Qed.
Lemma block_sdus c u i pdu xs : reached c u -> wf pdu -> bpos pdu = bstart pdu -> vtime (tv_time i) -> on_channel i = true ->
  block_sent (tv_chan i) (window pdu) (map (fun x => ASdu (fst x) (snd x)) xs) -> exists outs, rx_tmv_unitdata_ind i pdu u = Ok (u, outs) /\ Forall2 (is_sdu_of i) xs outs.
Proof.
  intros R W P V C B. destruct (block_as_sent c u i pdu _ R W P V C B) as (q & D & ->). destruct (sdus_only _ _ _ _ D) as (outs & -> & F). exists outs. now split.
Qed.

(** * What is lost *)
Lemma heard_stop i l u r acts : heard i l u r -> first_pdu (tv_chan i) l = Acts acts None ->
  exists q, does_all i acts u q /\ r = unflag q.
Proof.
  intros HH EP. inversion HH as [l0 u1 E1|l0 u1 a m E1 D|l0 u1 a m u2 o c E1 D Z|l0 u1 a m u2 o E1 D Z|l0 u1 a m u2 o r1 E1 D Z HR]; subst; rewrite EP in E1; try discriminate E1; injection E1 as <- <-.
  - exists Panic. now split.
  - exists (Ok (u2, o, c)). now split.
Qed.
(** Behind a random access without SDU. *)
Lemma lost_after_access c u i pdu p a n k rest : reached c u -> wf pdu -> bpos pdu = bstart pdu -> vtime (tv_time i) -> on_channel i = true -> tv_chan i = UcSchHu ->
  macc_valid p = true -> mu_enc p = false -> mu_addr p = Some a -> mu_len p = Some n -> (1 <= n)%N -> mu_fill p = (0 <? k) ->
  8 * N.to_nat n = length (enc (macc_layout p)) + k -> window pdu = (enc (macc_layout p) ++ pad k) ++ rest -> exists u', rx_tmv_unitdata_ind i pdu u = Ok (u', []).
Proof.
  intros R W P V C CH VA EN AD LN B F T EW. destruct (block_heard c u i pdu R W P V C) as (r & -> & H). rewrite EW in H.
  assert (T' : 8 * N.to_nat n = length (enc (macc_layout p)) + length (@nil bool) + k) by (cbn [length]; lia).
  assert (EP : first_pdu (tv_chan i) ((enc (macc_layout p) ++ pad k) ++ rest) = Acts [AAck a] None).
  { rewrite CH, <- app_assoc, acc_dispatch. unfold access_pdu. rewrite acc_parse, AD, LN, EN by assumption. destruct (N.eqb_spec n 0); [lia|].
    change (enc (macc_layout p) ++ pad k ++ rest) with (enc (macc_layout p) ++ [] ++ pad k ++ rest). rewrite (app_assoc [] (pad k) rest), app_assoc, (min_sent _ [] _ _ _ T').
    destruct (Nat.ltb_spec (8 * N.to_nat n) (length (enc (macc_layout p)))); [lia|]. rewrite F, (sdu_sent _ [] _ _ _ T'), (valid_tail true p n); [reflexivity| |assumption].
    apply Bool.andb_true_iff in VA. apply VA. }
  destruct (heard_stop _ _ _ _ _ H EP) as (q & D & ->). destruct (ack_ok (tv_time i) a (um_sch u) (proj1 (reached_sound c u R)) V) as (s & E & _).
  inversion D as [|? ? ? D1|? ? ? u1 o1 D1|? ? ? u1 o1 D1 q1 D2]; subst; cbn [does] in D1; rewrite E in D1; try discriminate D1. injection D1 as -> ->.
  inversion D2; subst. cbn. eauto.
Qed.
(** Behind an encrypted PDU. *)
Lemma lost_after_encrypted c u i pdu p a n rest : reached c u -> wf pdu -> bpos pdu = bstart pdu -> vtime (tv_time i) -> on_channel i = true -> (tv_chan i = UcSchF \/ tv_chan i = UcStch) ->
  mdata_valid p = true -> mu_enc p = true -> mu_addr p = Some a -> mu_len p = Some n -> (5 <= n <= 55)%N -> window pdu = enc (mdata_layout p) ++ rest -> 8 * N.to_nat n <= length (window pdu) ->
  rx_tmv_unitdata_ind i pdu u = Ok (u, []).
Proof.
  intros R W P V C CH VA EN AD LN B EW LE. destruct (block_heard c u i pdu R W P V C) as (r & -> & H). rewrite EW in H, LE.
  assert (HL : length (enc (mdata_layout p)) = 37) by (unfold mdata_layout, mu_addr_layout; rewrite AD, LN; destruct (mu_el p); rewrite enc_length; reflexivity).
  assert (EP : first_pdu (tv_chan i) (enc (mdata_layout p) ++ rest) = Acts [] None).
  { rewrite data_dispatch by assumption. unfold data_pdu. rewrite data_parse, AD, LN, EN by assumption. destruct (N.eqb_spec n 0); [lia|].
    destruct (N.leb_spec 2 n); [|lia]. destruct (N.leb_spec n 55); [|lia]. cbn [andb]. destruct (Nat.ltb_spec (Nat.min (8 * N.to_nat n) (length (enc (mdata_layout p) ++ rest))) (length (enc (mdata_layout p)))); [lia|].
    reflexivity. }
  destruct (heard_stop _ _ _ _ _ H EP) as (q & D & ->). inversion D; subst. reflexivity.
Qed.
(** Behind the end of an SDU whose beginning was not received. *)
Lemma lost_after_end c u i pdu p n sdu k rest : reached c u -> wf pdu -> bpos pdu = bstart pdu -> vtime (tv_time i) -> on_channel i = true -> (tv_chan i = UcSchF \/ tv_chan i = UcStch) ->
  meul_valid p = true -> eu_len p = Some n -> eu_fill p = (0 <? k) -> 8 * N.to_nat n = length (enc (meul_layout p)) + length sdu + k ->
  window pdu = (enc (meul_layout p) ++ sdu ++ pad k) ++ rest -> ul_get_slot_owner (tv_time i) (tv_blk i) (ds_ul (um_sch u)) = Ok None ->
  rx_tmv_unitdata_ind i pdu u = Ok (u, []).
Proof.
  intros R W P V C CH VA LN F T EW OW. destruct (block_heard c u i pdu R W P V C) as (r & -> & HH). rewrite EW in HH.
  destruct (sent_ok _ _ _ _ _ (s_end _ p n sdu k rest CH VA LN F T)) as (EP & _).
  assert (D : forall q, does_all i [ALast None sdu] u q -> q = Ok (u, [], false)).
  { intros q D. inversion D as [|? ? ? D1|? ? ? u1 o1 D1|? ? ? u1 o1 D1 q1 D2]; subst; cbn [does] in D1; destruct D1 as (f & _ & _ & D1); rewrite OW in D1; cbn [bind] in D1; try discriminate D1. now injection D1 as -> ->. }
  inversion HH as [l0 u1 E1|l0 u1 aa m E1 DD|l0 u1 aa m u2 o cc E1 DD Z|l0 u1 aa m u2 o E1 DD Z|l0 u1 aa m u2 o r1 E1 DD Z HR]; subst; rewrite EP in E1; try discriminate E1; injection E1 as <- <-; apply D in DD; try discriminate DD.
  now injection DD as -> ->.
Qed.

(** * What stops the program *)
Lemma parse_shape {A} (r : reader A) pre rest P x n : rlocal r -> MacBroadcastProofs.rsafe_at pre r -> took P r -> parse r (pre ++ rest) = Some (x, n) -> n <= length (pre ++ rest) /\ P x n.
Proof.
  intros L S T E. destruct (from_bitstr_spec (pre ++ rest)) as (b & _ & W & PB & _ & EW). assert (RB : remaining b = pre ++ rest) by (unfold remaining; rewrite PB; exact EW).
  pose proof (read_ul r pre rest P b L S T W RB) as H. rewrite RB, E in H. destruct H as (A1 & _ & A2). auto.
Qed.
Definition mild (x : ul_act) : Prop := match x with AAsk _ q => (q <= 14)%N | ALast (Some q) _ => (q <= 14)%N | _ => True end.
Lemma asks_mild a req : (forall q, req = Some q -> (q <= 15)%N) -> req <> Some 15%N -> Forall mild (asks a req).
Proof. intros H N0. destruct req as [q|]; cbn [asks]; [|constructor]. specialize (H q eq_refl). repeat constructor. cbn [mild]. assert (q <> 15%N) by congruence. lia. Qed.
Lemma sdu_mild a d : Forall mild (sdu_act a d).
Proof. destruct d; repeat constructor. Qed.
Lemma stolen_mild s : Forall mild (stolen_act s).
Proof. destruct s; repeat constructor. Qed.
Lemma mdata_len6 : took (fun p _ => forall n, mu_len p = Some n -> (n < 64)%N) mdata_read.
Proof.
  unfold mdata_read. eapply took_bind; [apply took_field; lia|]. intros t n (-> & _). eapply took_bind; [apply took_assert|]. intros ? n (-> & _).
  eapply took_bind; [apply took_flag|]. intros fill n ->. eapply took_bind; [apply took_flag|]. intros en n ->.
  eapply took_bind; [apply took_addr|]. intros ae n A. eapply took_bind; [apply took_field; lia|]. intros f m (-> & _).
  apply took_if; intros _.
  - eapply took_bind; [apply took_field; lia|]. intros l m (-> & HL). apply took_ret. cbn [mu_len]. intros k E. injection E as <-. exact HL.
  - eapply took_bind; [apply took_flag|]. intros fr m ->. eapply took_bind; [apply took_field; lia|]. intros v m (-> & Hv). eapply took_bind; [apply took_lift|]. intros q m (-> & Hq).
    eapply took_bind; [apply took_ignore|]. intros ? m Hm. apply took_ret. discriminate.
Qed.
Lemma gentle c l : ~ hostile c l -> exists acts n, first_pdu c l = Acts acts n /\ Forall mild acts.
Proof.
  intros H.
  assert (DATA : forall rest, l = [false; false] ++ rest -> ~ (exists p h, parse mdata_read l = Some (p, h) /\ mu_addr p <> None /\
      (mu_req p = Some 15%N \/ exists n, mu_len p = Some n /\ (n = 1 \/ 56 <= n <= 61 \/ too_short n (N.of_nat h))%N)) -> exists acts n, data_pdu l = Acts acts n /\ Forall mild acts).
  { intros rest -> NH. unfold data_pdu. destruct (parse mdata_read ([false; false] ++ rest)) as [[p h]|] eqn:EP; [|exists [], None; auto].
    destruct (parse_shape _ _ _ _ _ _ mdata_local MacBroadcastProofs.mdata_safe mdata_shape EP) as (HH & SH & _ & HQ).
    destruct (parse_shape _ _ _ _ _ _ mdata_local MacBroadcastProofs.mdata_safe mdata_len6 EP) as (_ & L6).
    destruct (mu_addr p) as [a|] eqn:EA; [|exists [], None; auto].
    assert (NQ : mu_req p <> Some 15%N) by (intros Q; apply NH; exists p, h; rewrite EA; repeat split; [congruence|now left]).
    assert (NL : forall n, mu_len p = Some n -> ~ (n = 1 \/ 56 <= n <= 61 \/ too_short n (N.of_nat h))%N).
    { intros n EL Q. apply NH. exists p, h. rewrite EA. repeat split; [congruence|]. right. eauto. }
    set (g := fun (ext : nat) (first stolen : bool) =>
            if (ext <? h)%nat then Crash
            else if mu_enc p then Acts (stolen_act stolen) None
            else let d := sdu_of (mu_fill p) h ext ([false; false] ++ rest) in
                 Acts (stolen_act stolen ++ asks a (mu_req p) ++ (if first then [AFirst a d] else sdu_act a d)) (Some ext)).
    assert (G : forall ext f s, h <= ext -> exists acts n, g ext f s = Acts acts n /\ Forall mild acts).
    { intros ext f s HE. unfold g. destruct (Nat.ltb_spec ext h); [lia|]. destruct (mu_enc p); [eexists _, _; split; [reflexivity|apply stolen_mild]|].
      eexists _, _. split; [reflexivity|]. apply Forall_app. split; [apply stolen_mild|]. apply Forall_app. split; [now apply asks_mild|]. destruct f; [repeat constructor|apply sdu_mild]. }
    destruct (mu_len p) as [k|].
    - specialize (NL k eq_refl). specialize (L6 k eq_refl). destruct (N.eqb_spec k 0); [exists [], None; auto|]. destruct (N.leb_spec 2 k) as [B2|B2], (N.leb_spec k 55) as [B3|B3]; cbn [andb]; try lia.
      + refine (G (Nat.min (8 * N.to_nat k) (length ([false; false] ++ rest))) false false _). assert (~ too_short k (N.of_nat h)) by tauto. unfold too_short in *. lia.
      + destruct (N.eqb_spec k 62); [exact (G (length ([false; false] ++ rest)) false true HH)|]. destruct (N.eqb_spec k 63); [exact (G (length ([false; false] ++ rest)) true false HH)|]. exfalso. lia.
    - exact (G (length ([false; false] ++ rest)) (match mu_frag p with Some f => f | None => false end) false HH). }
  assert (ACC : forall rest, l = [false] ++ rest -> ~ (exists p h, parse macc_read l = Some (p, h) /\ mu_addr p <> None /\
      (mu_req p = Some 15%N \/ exists n, mu_len p = Some n /\ too_short n (N.of_nat h))) -> exists acts n, access_pdu l = Acts acts n /\ Forall mild acts).
  { intros rest -> NH. unfold access_pdu. destruct (parse macc_read ([false] ++ rest)) as [[p h]|] eqn:EP; [|exists [], None; auto].
    destruct (parse_shape _ _ _ _ _ _ macc_local MacBroadcastProofs.macc_safe macc_shape EP) as (HH & SH & HQ).
    destruct (mu_addr p) as [a|] eqn:EA; [|exists [], None; auto].
    assert (NQ : mu_req p <> Some 15%N) by (intros Q; apply NH; exists p, h; rewrite EA; repeat split; [congruence|now left]).
    assert (NL : forall n, mu_len p = Some n -> ~ too_short n (N.of_nat h)).
    { intros n EL Q. apply NH. exists p, h. rewrite EA. repeat split; [congruence|]. right. eauto. }
    set (g := fun (ext : nat) (first : bool) =>
            if (ext <? h)%nat then Crash
            else if mu_enc p then Acts [AAck a] None
            else let d := sdu_of (mu_fill p) h ext ([false] ++ rest) in
                 if first then Acts (AAck a :: asks a (mu_req p) ++ [AFirst a d]) (Some ext)
                 else Acts (AAck a :: asks a (mu_req p) ++ sdu_act a d) (match d with [] => None | _ => Some ext end)).
    assert (G : forall ext f, h <= ext -> exists acts n, g ext f = Acts acts n /\ Forall mild acts).
    { intros ext f HE. unfold g. destruct (Nat.ltb_spec ext h); [lia|]. destruct (mu_enc p); [eexists _, _; split; [reflexivity|repeat constructor]|].
      destruct f; eexists _, _; (split; [reflexivity|]); constructor; try exact Logic.I; apply Forall_app; (split; [now apply asks_mild|]); [repeat constructor|apply sdu_mild]. }
    destruct (mu_len p) as [k|].
    - specialize (NL k eq_refl). destruct (N.eqb_spec k 0); [exists [], None; auto|]. refine (G (Nat.min (8 * N.to_nat k) (length ([false] ++ rest))) false _). unfold too_short in NL. lia.
    - exact (G (length ([false] ++ rest)) (match mu_frag p with Some f => f | None => false end) HH). }
  assert (LAST : forall fill h ext req, h <= ext -> (forall q, req = Some q -> (q <= 15)%N) -> req <> Some 15%N -> exists acts n, end_pdu fill h ext req l = Acts acts n /\ Forall mild acts).
  { intros fill h ext req HE HQ NQ. unfold end_pdu. destruct (Nat.ltb_spec ext h); [lia|]. eexists _, _. split; [reflexivity|]. repeat constructor. cbn [mild]. destruct req as [q|]; [|exact Logic.I].
    specialize (HQ q eq_refl). assert (q <> 15%N) by congruence. lia. }
  assert (EUL : forall rest, l = [false; true; true] ++ rest -> ~ (exists p h n, parse meul_read l = Some (p, h) /\ eu_len p = Some n /\ (n <= 1)%N) -> exists acts n, endul_pdu l = Acts acts n /\ Forall mild acts).
  { intros rest EL NH. unfold endul_pdu. destruct (parse meul_read l) as [[p h]|] eqn:EP; [|exists [], None; auto]. pose proof EP as EP'. rewrite EL in EP'.
    destruct (parse_shape _ _ _ _ _ _ meul_local MacBroadcastProofs.meul_safe meul_shape EP') as (HH & -> & RQ & LN). rewrite <- EL in HH.
    apply LAST; rewrite ?RQ; try discriminate. destruct (eu_len p) as [n|] eqn:ELN; [|congruence].
    assert (~ (n <= 1)%N) by (intros Q; apply NH; exists p, 10, n; auto). lia. }
  assert (EHU : forall rest, l = [true] ++ rest -> ~ (exists p h, parse mehu_read l = Some (p, h) /\ eh_req p = Some 15%N) -> exists acts n, endhu_pdu l = Acts acts n /\ Forall mild acts).
  { intros rest EL NH. unfold endhu_pdu. destruct (parse mehu_read l) as [[p h]|] eqn:EP; [|exists [], None; auto]. pose proof EP as EP'. rewrite EL in EP'.
    destruct (parse_shape _ _ _ _ _ _ mehu_local MacBroadcastProofs.mehu_safe mehu_shape EP') as (HH & -> & HQ). rewrite <- EL in HH.
    assert (NQ : eh_req p <> Some 15%N) by (intros Q; apply NH; exists p, 7; auto).
    destruct (eh_len p) as [n|]; [|now apply LAST]. destruct (N.eqb_spec n 0); [exists [], None; auto|]. apply LAST; auto. lia. }
  unfold hostile in H. unfold first_pdu. assert (NONE : exists acts n, Acts [] None = Acts acts n /\ Forall mild acts) by (exists [], None; auto).
  destruct c; [| | |exact NONE].
  - destruct l as [|[] [|[] [|[] rest]]]; try exact NONE; try exact (EUL rest eq_refl H); try exact (DATA (_ :: rest) eq_refl H).
    + unfold blck_pdu. destruct (parse ublck_read _); [exfalso; apply H; discriminate|exact NONE].
    + unfold frag_pdu. destruct (parse mfrag_read _) as [[f h]|]; [eexists _, _; split; [reflexivity|repeat constructor]|exact NONE].
  - destruct l as [|[] [|[] [|[] rest]]]; try exact NONE; try exact (EUL rest eq_refl H); try exact (DATA (_ :: rest) eq_refl H).
    1,2: unfold signal_pdu; destruct (parse usignal_read _) as [[[] h]|]; try exact NONE; eexists _, _; split; [reflexivity|apply sdu_mild].
    unfold frag_pdu. destruct (parse mfrag_read _) as [[f h]|]; [eexists _, _; split; [reflexivity|repeat constructor]|exact NONE].
  - destruct l as [|[] [|y [|z rest]]]; try exact NONE; [exact (EHU (y :: z :: rest) eq_refl H)|exact (ACC (y :: z :: rest) eq_refl H)].
Qed.
Lemma mild_act i x u r : does i x u r -> mild x -> sound u -> vtime (tv_time i) -> tv_blk i <> BlockUndef -> exists u' o c, r = Ok (u', o, c) /\ sound u'.
Proof.
  intros H M S V B.
  assert (RES : forall t a req s, sched_ok s -> vtime t -> match req with Some q => (q <= 14)%N | None => True end -> exists s', rx_reservation t a req s = Ok s' /\ sched_ok s').
  { intros t a req s SO VT MQ. destruct (reserve_ok t a req s SO VT) as [(-> & _)|X]; [destruct req; intros q0 E0; [injection E0 as <-; lia|discriminate E0]|exfalso; lia|exact X]. }
  destruct x as [|a|a q|a d|a d|d|req d]; cbn [does mild] in *.
  - subst r. eauto.
  - destruct (ack_ok (tv_time i) a (um_sch u) (proj1 S) V) as (s & E & SO). rewrite E in H. cbn [bind] in H. eexists _, _, _. split; [exact H|]. now apply sound_sch.
  - destruct (RES (tv_time i) a (Some q) (um_sch u) (proj1 S) V M) as (s & E & SO). rewrite E in H. cbn [bind] in H. eexists _, _, _. split; [exact H|]. now apply sound_sch.
  - destruct H as (b & _ & _ & _ & ->). eauto.
  - destruct H as (f & W & _ & ->). destruct S as (S & h & RD & F). destruct (first_step (um_defrag u) h f (tv_time i) a false RD V W) as (d' & E & RD'). cbn [df_step]. rewrite E. cbn [bind].
    eexists _, _, _. split; [reflexivity|]. split; [exact S|]. eexists. split; [exact RD'|]. apply Forall_app. split; [exact F|]. repeat constructor.
  - destruct H as (f & W & _ & ->). destruct (owner_ok (tv_time i) (tv_blk i) (um_sch u) (proj1 S) V B) as (o & ->). cbn [bind]. destruct o as [ssi|]; [|eauto].
    destruct S as (S & h & RD & F). rewrite (aie_none _ h _ ssi RD F V). cbn [bind df_step]. destruct (next_core (um_defrag u) h f (tv_time i) ssi RD V W) as (d' & c' & E & RD'). rewrite E. cbn [bind].
    eexists _, _, _. split; [reflexivity|]. split; [exact S|]. eexists. split; [exact RD'|]. apply Forall_app. split; [exact F|]. repeat constructor.
  - destruct H as (f & W & _ & ->). destruct (owner_ok (tv_time i) (tv_blk i) (um_sch u) (proj1 S) V B) as (o & ->). cbn [bind]. destruct o as [ssi|]; [|eauto 6].
    destruct S as (S & h & RD & F). rewrite (aie_none _ h _ ssi RD F V). cbn [bind negb assert df_step]. destruct (last_step (um_defrag u) h f (tv_time i) ssi RD V W) as (o & d' & c' & E & RD' & _). rewrite E. cbn [bind].
    assert (S' : sound (set_defrag d' u)) by (split; [exact S|]; eexists; split; [exact RD'|]; apply Forall_app; split; [exact F|]; repeat constructor).
    destruct o as [b|]; [|eauto 6]. destruct (RES (tv_time i) (df_addr b) req (um_sch (set_defrag d' u)) S V M) as (s & ER & SO). rewrite ER. cbn [bind].
    eexists _, _, _. split; [reflexivity|]. now apply sound_sch.
Qed.
Lemma mild_acts i acts u r : does_all i acts u r -> Forall mild acts -> sound u -> vtime (tv_time i) -> tv_blk i <> BlockUndef -> exists u' o c, r = Ok (u', o, c) /\ sound u'.
Proof.
  induction 1 as [u|x l u H|x l u u1 o1 H|x l u u1 o1 H r HR IH]; intros F S V B.
  - eauto.
  - destruct (mild_act _ _ _ _ H (Forall_inv F) S V B) as (u' & o & c & E & _). discriminate E.
  - destruct (mild_act _ _ _ _ H (Forall_inv F) S V B) as (u' & o & c & E & S'). injection E as <- <- <-. eauto.
  - destruct (mild_act _ _ _ _ H (Forall_inv F) S V B) as (u' & o & c & E & S'). injection E as <- <- <-.
    destruct (IH (Forall_inv_tail F) S' V B) as (u2 & o2 & c2 & -> & S2). cbn [bind]. eauto.
Qed.
Lemma no_hostile i l u r : heard i l u r -> (forall l', begins (tv_chan i) l l' -> ~ hostile (tv_chan i) l') -> sound u -> vtime (tv_time i) -> tv_blk i <> BlockUndef ->
  exists u' o, r = Ok (u', o).
Proof.
  induction 1 as [l u EP|l u acts n EP H|l u acts n u1 o1 c EP H _|l u acts n u1 o1 EP H _|l u acts n u1 o1 r EP H _ HR IH]; intros NH S V B;
    destruct (gentle _ _ (NH l (b_here _ l))) as (a2 & n2 & E2 & M); rewrite EP in E2; try discriminate E2; injection E2 as <- <-.
  - destruct (mild_acts _ _ _ _ H M S V B) as (u' & o & c & E & _). discriminate E.
  - eauto.
  - eauto.
  - destruct (mild_acts _ _ _ _ H M S V B) as (u' & o & c & E & S'). injection E as <- <- <-.
    destruct (IH (fun l' HB => NH l' (b_next _ _ _ _ _ EP HB)) S' V B) as (u2 & o2 & ->). cbn [bind]. eauto.
Qed.
Lemma block_safe c u i pdu : reached c u -> wf pdu -> bpos pdu = bstart pdu -> vtime (tv_time i) -> on_channel i = true ->
  (forall l, begins (tv_chan i) (window pdu) l -> ~ hostile (tv_chan i) l) -> exists u' o, rx_tmv_unitdata_ind i pdu u = Ok (u', o).
Proof.
  intros R W P V C NH. destruct (block_heard c u i pdu R W P V C) as (r & -> & H). apply (no_hostile _ _ _ _ H NH (reached_sound c u R) V).
  intros E. unfold on_channel in C. rewrite E in C. destruct (tv_chan i); discriminate C.
Qed.
(** The blocks that stop the program, whatever comes behind. *)
Lemma crash_now c u i pdu : reached c u -> wf pdu -> bpos pdu = bstart pdu -> vtime (tv_time i) -> on_channel i = true ->
  first_pdu (tv_chan i) (window pdu) = Crash -> rx_tmv_unitdata_ind i pdu u = Panic.
Proof.
  intros R W P V C E. destruct (block_heard c u i pdu R W P V C) as (r & -> & HH).
  inversion HH as [l0 u1 E1|l0 u1 aa m E1 DD|l0 u1 aa m u2 o cc E1 DD Z|l0 u1 aa m u2 o E1 DD Z|l0 u1 aa m u2 o r1 E1 DD Z HR]; subst; rewrite E in E1; try discriminate E1. reflexivity.
Qed.
Definition killer (c : ul_chan) (l : list bool) : Prop :=
  (exists p a n rest, (c = UcSchF \/ c = UcStch) /\ mdata_valid p = true /\ mu_addr p = Some a /\ mu_len p = Some n /\ (1 <= n <= 4 \/ 56 <= n <= 61)%N /\ l = enc (mdata_layout p) ++ rest) \/
  (exists p a n rest, c = UcSchHu /\ macc_valid p = true /\ mu_addr p = Some a /\ mu_len p = Some n /\ (1 <= n <= 4)%N /\ l = enc (macc_layout p) ++ rest) \/
  (exists p rest, (c = UcSchF \/ c = UcStch) /\ meul_valid p = true /\ eu_len p = Some 1%N /\ l = enc (meul_layout p) ++ rest) \/
  (exists p rest, c = UcSchF /\ fits (ublck_layout p) = true /\ l = enc (ublck_layout p) ++ rest).
Lemma killer_crash c l : killer c l -> first_pdu c l = Crash.
Proof.
  intros [(p & a & n & rest & C & V & AD & LN & B & ->)|[(p & a & n & rest & -> & V & AD & LN & B & ->)|[(p & rest & C & V & LN & ->)|(p & rest & -> & V & ->)]]].
  - assert (HL : length (enc (mdata_layout p)) = 37) by (unfold mdata_layout, mu_addr_layout; rewrite AD, LN; destruct (mu_el p); rewrite enc_length; reflexivity).
    rewrite data_dispatch by assumption. unfold data_pdu. rewrite data_parse, AD, LN by assumption. destruct (N.eqb_spec n 0); [lia|]. destruct (N.leb_spec 2 n), (N.leb_spec n 55); cbn [andb]; try lia.
    + destruct (Nat.ltb_spec (Nat.min (8 * N.to_nat n) (length (enc (mdata_layout p) ++ rest))) (length (enc (mdata_layout p)))); [reflexivity|lia].
    + destruct (N.eqb_spec n 62); [lia|]. destruct (N.eqb_spec n 63); [lia|]. reflexivity.
    + destruct (N.eqb_spec n 62); [lia|]. destruct (N.eqb_spec n 63); [lia|]. reflexivity.
  - assert (HL : length (enc (macc_layout p)) = 36) by (unfold macc_layout, mu_addr_layout; rewrite AD, LN; destruct (mu_el p); rewrite enc_length; reflexivity).
    rewrite acc_dispatch. unfold access_pdu. rewrite acc_parse, AD, LN by assumption. destruct (N.eqb_spec n 0); [lia|].
    destruct (Nat.ltb_spec (Nat.min (8 * N.to_nat n) (length (enc (macc_layout p) ++ rest))) (length (enc (macc_layout p)))); [reflexivity|lia].
  - assert (RQ : eu_req p = None) by (unfold meul_valid in V; rewrite LN in V; destruct (eu_req p); congruence).
    assert (ST : exists x t, enc (meul_layout p) = false :: true :: true :: x :: t) by (unfold meul_layout, enc; cbn [app flat_map]; cbn; eauto).
    assert (HL : length (enc (meul_layout p)) = 10) by (unfold meul_layout; rewrite enc_length; reflexivity).
    assert (D : first_pdu c (enc (meul_layout p) ++ rest) = endul_pdu (enc (meul_layout p) ++ rest)) by (destruct ST as (x & t & ->); destruct C as [->| ->]; reflexivity).
    rewrite D. unfold endul_pdu. rewrite (parse_reads _ _ _ _ (proj2 (meul_carries p V RQ))), LN, HL. unfold end_pdu.
    destruct (Nat.ltb_spec (Nat.min (8 * N.to_nat 1) (length (enc (meul_layout p) ++ rest))) 10); [reflexivity|lia].
  - assert (D : first_pdu UcSchF (enc (ublck_layout p) ++ rest) = blck_pdu (enc (ublck_layout p) ++ rest)) by reflexivity.
    rewrite D. unfold blck_pdu. now rewrite (parse_reads _ _ _ _ (proj2 (ublck_carries p V))).
Qed.
Lemma killed c u i pdu : reached c u -> wf pdu -> bpos pdu = bstart pdu -> vtime (tv_time i) -> on_channel i = true -> killer (tv_chan i) (window pdu) -> rx_tmv_unitdata_ind i pdu u = Panic.
Proof. intros R W P V C K. apply (crash_now c u i pdu R W P V C). now apply killer_crash. Qed.
(** A reservation requirement of 15. *)
Lemma killed15 c u i pdu p a first sdu k : reached c u -> wf pdu -> bpos pdu = bstart pdu -> vtime (tv_time i) -> on_channel i = true -> (tv_chan i = UcSchF \/ tv_chan i = UcStch) ->
  mdata_valid p = true -> mu_enc p = false -> mu_addr p = Some a -> mu_len p = None -> mu_frag p = Some first -> mu_req p = Some 15%N -> mu_fill p = (0 <? k) -> sdu <> [] ->
  window pdu = enc (mdata_layout p) ++ sdu ++ pad k -> rx_tmv_unitdata_ind i pdu u = Panic.
Proof.
  intros R W P V C CH VA EN AD LN FR RQ F NE EW. pose proof (reached_sound c u R) as ((_ & now & l & CU & _) & _).
  destruct (block_as_sent c u i pdu [AAsk a 15%N; if first then AFirst a sdu else ASdu a sdu] R W P V C) as (q & D & ->).
  - rewrite EW, <- (app_nil_r (_ ++ _)). apply bs_last with (n := length (enc (mdata_layout p) ++ sdu ++ pad k)); [now apply s_data_all|cbn [length]; lia].
  - assert (X : rx_reservation (tv_time i) a (Some 15%N) (um_sch u) = Panic) by (cbn [rx_reservation]; rewrite CU, UlSchedProofs.request15_panics; reflexivity).
    inversion D as [|? ? ? D1|? ? ? u1 o1 D1|? ? ? u1 o1 D1 q1 D2]; subst; cbn [does] in D1; rewrite X in D1; try discriminate D1. reflexivity.
Qed.

(** * An example *)
Definition ex_bits (l : list bool) : bitbuf := match bb_from_bitstr l with Ok b => b | _ => bb_new 0 end.
Lemma ex_bits_ok l : wf (ex_bits l) /\ bpos (ex_bits l) = bstart (ex_bits l) /\ window (ex_bits l) = l.
Proof. unfold ex_bits. destruct (from_bitstr_spec l) as (b & -> & W & P & _ & E). auto. Qed.
Definition ex_radio : tetra_addr := mk_addr 1001 false SsiSsi.
Definition ex_text (n : nat) : list bool := map (fun i => Nat.odd (i / 3)) (seq 0 n).
(** a random access with the first part of an SDU and a request for one slot *)
Definition ex_acc : mac_ul := mk_mul false false (Some ex_radio) None None (Some true) (Some 1%N).
Definition ex_acc_block : list bool := enc (macc_layout ex_acc) ++ ex_text (92 - length (enc (macc_layout ex_acc))) ++ pad 0.
Definition ex_t0 : tdma_time := mk_time 1 1 1 0.
Definition ex_at (t : tdma_time) (c : ul_chan) b : tmv_ind := mk_tmv t c b 17.
Definition ex_evs : list um_event :=
  [UeBlock (ex_at (mk_time 3 18 60 0) UcSchHu Block1) (ex_bits ex_acc_block); UeTick false (mk_time 2 1 1 0); UeTick false (mk_time 3 1 1 0)].
Lemma ex_fine : Forall ev_fine ex_evs.
Proof.
  destruct (ex_bits_ok ex_acc_block) as (W & P & _). unfold ex_evs. constructor; [|constructor; [exact Logic.I|constructor; [exact Logic.I|constructor]]].
  cbn [ev_fine tv_time ex_at]. split; [exact W|]. split; [exact P|]. unfold vtime. cbn [tm_t tm_f tm_m tm_h]. lia.
Qed.
Definition is_ok {A} (r : res A) : bool := match r with Ok _ => true | _ => false end.
Definition run_from (c : cell_cfg) (t : tdma_time) (evs : list um_event) : res umac :=
  u <- umac_new c false ;; ' (u, _) <- um_run c (UeTick false t :: evs) u ;; Ok u.
Lemma run_reached c t evs : vtime t -> Forall ev_fine evs -> is_ok (run_from c t evs) = true -> exists u, run_from c t evs = Ok u /\ reached c u.
Proof.
  intros V F H. unfold run_from in *. destruct (umac_new c false) as [u0| |] eqn:E0; [|discriminate H|discriminate H]. cbn [bind] in *.
  destruct (um_run c (UeTick false t :: evs) u0) as [[u log]| |] eqn:E1; [|discriminate H|discriminate H]. cbn [bind] in *. exists u. split; [reflexivity|].
  exists false, u0, false, t, evs, log. auto.
Qed.
Lemma ex_runs : is_ok (run_from DlFacts.ex_cell ex_t0 ex_evs) = true.
Proof. vm_compute. reflexivity. Qed.
Lemma ex_reached : exists u, run_from DlFacts.ex_cell ex_t0 ex_evs = Ok u /\ reached DlFacts.ex_cell u.
Proof. apply run_reached; [unfold vtime, ex_t0; cbn [tm_t tm_f tm_m tm_h]; lia|exact ex_fine|exact ex_runs]. Qed.
(** A slot with two PDUs, and one with a random access, its second PDU and what is left. *)
Definition ex_data (k : nat) (n : N) : mac_ul := mk_mul (0 <? k)%nat false (Some ex_radio) None (Some n) None None.
Definition ex_two : list bool :=
  (enc (mdata_layout (ex_data 0 8)) ++ ex_text 27 ++ pad 0) ++ (enc (mdata_layout (ex_data 3 10)) ++ ex_text 40 ++ pad 3) ++ enc (mdata_layout (ex_data 0 0)) ++ repeat false 87.
Lemma ex_two_sent : length ex_two = 268 /\ block_sent UcSchF ex_two (map (fun x => ASdu (fst x) (snd x)) [(ex_radio, ex_text 27); (ex_radio, ex_text 40)]).
Proof.
  split; [reflexivity|]. unfold ex_two. cbn [map fst snd].
  apply (bs_next UcSchF _ _ [ASdu ex_radio (ex_text 27)] 64 [ASdu ex_radio (ex_text 40)]).
  - apply (s_data UcSchF (ex_data 0 8) ex_radio 8); try reflexivity; try lia; [now left|discriminate].
  - vm_compute. lia.
  - rewrite <- (app_nil_r [ASdu ex_radio (ex_text 40)]). apply (bs_next UcSchF _ _ [ASdu ex_radio (ex_text 40)] 80 []).
    + apply (s_data UcSchF (ex_data 3 10) ex_radio 10); try reflexivity; try lia; [now left|discriminate].
    + vm_compute. lia.
    + apply bs_none. apply (s_null UcSchF (ex_data 0 0) ex_radio); try reflexivity. now left.
Qed.
Definition ex_full : tmv_ind := ex_at (mk_time 1 1 1 0) UcSchF BothBlocks.
Lemma ex_full_ok : vtime (tv_time ex_full) /\ on_channel ex_full = true.
Proof. split; [unfold vtime; cbn [ex_full ex_at tv_time tm_t tm_f tm_m tm_h]; lia|reflexivity]. Qed.
Definition ex_half : tmv_ind := ex_at (mk_time 1 1 1 0) UcSchHu Block2.
Lemma ex_half_ok : vtime (tv_time ex_half) /\ on_channel ex_half = true.
Proof. split; [unfold vtime; cbn [ex_half ex_at tv_time tm_t tm_f tm_m tm_h]; lia|reflexivity]. Qed.
Definition ex_quiet : mac_ul := mk_mul true false (Some ex_radio) None (Some 5%N) None None.
Definition ex_quiet_block : list bool := (enc (macc_layout ex_quiet) ++ pad 4) ++ (enc (macc_layout (mk_mul false false (Some ex_radio) None (Some 6%N) None None)) ++ ex_text 12) ++ repeat false 4.
Definition ex_crypt : mac_ul := mk_mul false true (Some (mk_addr 1001 true SsiSsi)) None (Some 8%N) None None.
Definition ex_crypt_block : list bool := enc (mdata_layout ex_crypt) ++ ex_text 27 ++ (enc (mdata_layout (ex_data 0 8)) ++ ex_text 27) ++ repeat false 140.
Definition ex_stray_block : list bool := (enc (meul_layout (mk_meul false (Some 4%N) None)) ++ ex_text 22 ++ pad 0) ++ (enc (mdata_layout (ex_data 0 8)) ++ ex_text 27) ++ repeat false 172.
Lemma ex_lengths : length ex_quiet_block = 92 /\ length ex_crypt_block = 268 /\ length ex_stray_block = 268.
Proof. repeat split. Qed.
Lemma ex_no_owner : exists u, run_from DlFacts.ex_cell ex_t0 ex_evs = Ok u /\ reached DlFacts.ex_cell u /\ ul_get_slot_owner (tv_time ex_full) (tv_blk ex_full) (ds_ul (um_sch u)) = Ok None.
Proof.
  destruct ex_reached as (u & E & R). exists u. split; [exact E|]. split; [exact R|].
  assert (H : match run_from DlFacts.ex_cell ex_t0 ex_evs with Ok v => match ul_get_slot_owner (tv_time ex_full) (tv_blk ex_full) (ds_ul (um_sch v)) with Ok None => true | _ => false end | _ => false end = true) by (vm_compute; reflexivity).
  rewrite E in H. destruct (ul_get_slot_owner _ _ _) as [[x|]| |]; try discriminate H. reflexivity.
Qed.
(** The radio that asked continues in its slot: the SDU is complete. *)
Definition ex_owned : tmv_ind := ex_at (mk_time 3 1 1 0) UcSchF BothBlocks.
Definition ex_end_block : list bool := (enc (meul_layout (mk_meul false (Some 4%N) None)) ++ ex_text 22 ++ pad 0) ++ (enc (mdata_layout (ex_data 0 8)) ++ ex_text 27 ++ pad 0) ++ enc (mdata_layout (ex_data 0 0)) ++ repeat false 135.
Lemma ex_end_sent : length ex_end_block = 268 /\ block_sent UcSchF ex_end_block [ALast None (ex_text 22); ASdu ex_radio (ex_text 27)].
Proof.
  split; [reflexivity|]. unfold ex_end_block. apply (bs_next UcSchF _ _ [ALast None (ex_text 22)] 32 [ASdu ex_radio (ex_text 27)]).
  - apply (s_end UcSchF (mk_meul false (Some 4%N) None) 4); try reflexivity. now left.
  - vm_compute. lia.
  - rewrite <- (app_nil_r [ASdu ex_radio (ex_text 27)]). apply (bs_next UcSchF _ _ [ASdu ex_radio (ex_text 27)] 64 []).
    + apply (s_data UcSchF (ex_data 0 8) ex_radio 8); try reflexivity; try lia; [now left|discriminate].
    + vm_compute. lia.
    + apply bs_none. apply (s_null UcSchF (ex_data 0 0) ex_radio); try reflexivity. now left.
Qed.
