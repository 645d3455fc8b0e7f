(** The two MACs of a mobile station and the bursts of a base station: proofs. *)
From Coq Require Import Arith.
From Verif Require Import Base BitBuffer BitBufferProofs Codec TdmaTime TdmaTimeProofs UlSched ErrorControl LmacSpec Slotter SlotterSpec MacBroadcast MleBroadcast DlSched UmacPrecomps UmacBs SlotSpec LmacBs BsMac AirSpec UmacMs LmacMs MobileSpec.
From Verif Require Scrambler.
Open Scope nat_scope.

Lemma bnch_hd b o : decode_cp Bnch b false o = decode_cp SchHd b false o.
Proof. reflexivity. Qed.
Lemma sb1_init b o : decode_cp Bsch b true o = decode_cp Bsch b false (Some Scrambler.SCRAMB_INIT).
Proof. reflexivity. Qed.

(** * One block *)
Lemma bbk_heard code air acc p lm t : holds_aach code air acc -> block_of TyBBK BlockUndef air p -> lms_code lm = Some code -> lms_time lm = Some t ->
  exists b, fresh_with b acc /\ lms_rx p lm = Ok (Some (MeBlock (mk_msi t Aach BlockUndef code) b)).
Proof.
  intros H (TY & _ & r & NR & FR) C T. destruct (H r _ NR FR) as (o & E & F). exists o. split; [exact F|].
  unfold lms_rx, lms_channel. rewrite TY. cbn [bind]. unfold lms_bbk, lms_now. rewrite C, E, T. reflexivity.
Qed.
Lemma cp_heard code ty num c air msg p lm t : holds_msg c (match c with Bsch => Scrambler.SCRAMB_INIT | _ => code end) air msg -> block_of ty num air p -> (ty = TySB1 <-> c = Bsch) -> match c with Bsch | SchHd | SchF | Bnch => True | _ => False end ->
  lms_code lm = Some code -> lms_time lm = Some t -> lms_channel p lm = Ok c ->
  exists e, brings t c num (match c with Bsch => Scrambler.SCRAMB_INIT | _ => code end) msg e /\ lms_rx p lm = Ok (Some e).
Proof.
  intros H (TY & NU & r & NR & FR) SB CH C T CC. destruct (H r _ NR FR) as (o & E & F). eexists. split; [exists o; split; [exact F|reflexivity]|].
  unfold lms_rx. rewrite CC. cbn [bind]. assert (X : lms_cp p c lm = Ok (Some (MeBlock (mk_msi t c num match c with Bsch => Scrambler.SCRAMB_INIT | _ => code end) o))).
  { unfold lms_cp. rewrite TY, C, NU. destruct ty; destruct c; try contradiction CH; try (destruct SB as [SB1 SB2]; solve [discriminate (SB1 eq_refl)|discriminate (SB2 eq_refl)]);
      try rewrite sb1_init; rewrite E; cbn [bind unwrap]; unfold lms_now; rewrite T; reflexivity. }
  destruct c; try contradiction CH; exact X.
Qed.
Lemma speech_skipped p lm ty num air : block_of ty num air p -> (ty = TyNDB) -> lms_traffic lm = true -> (is_mandatory_bsch (lms_now lm) = true -> num <> Block1) -> lms_rx p lm = Ok None.
Proof.
  intros (TY & NU & _) -> TR NB. unfold lms_rx, lms_channel. rewrite TY, NU, TR. destruct (is_mandatory_bsch (lms_now lm)); [|reflexivity]. destruct num; try reflexivity. now destruct (NB eq_refl).
Qed.

(** * One slot *)
Lemma slot_heard code x msg1 msg2 acc w blks t lm : on_air code x msg1 msg2 acc w -> demodulated x w blks -> lms_code lm = Some code -> lms_time lm = Some t -> (is_mandatory_bsch t = true -> x = KSync) ->
  (forall b, fresh_with b acc -> ms_aach (mk_msi t Aach BlockUndef code) b = Ok [MoTraffic t (speech x)]) ->
  exists evs, slot_brings code t x msg1 msg2 acc evs /\ forall um, mob_step (MvSlot blks) (mk_mobile lm um) = mob_upper evs (mk_mobile lm um).
Proof.
  intros (LW & OA) D C T MB AA.
  set (lm1 := mk_lms (lms_code lm) (lms_time lm) (speech x)).
  assert (C1 : lms_code lm1 = Some code) by exact C. assert (T1 : lms_time lm1 = Some t) by exact T. assert (N1 : lms_now lm1 = t) by (unfold lms_now; now rewrite T1).
  (* the access assignment is read at once *)
  assert (BB : forall air p r, holds_aach code air acc -> block_of TyBBK BlockUndef air p -> exists e0, brings t Aach BlockUndef code acc e0 /\
    forall um q, mob_blocks r (mk_mobile lm1 um) = Ok (mk_mobile lm1 um, q, []) -> mob_step (MvSlot (p :: r)) (mk_mobile lm um) = mob_upper (e0 :: q) (mk_mobile lm um)).
  { intros air p r HA BO. destruct (bbk_heard code air acc p lm t HA BO C T) as (b & FB & E). eexists. split; [exists b; split; [exact FB|reflexivity]|]. intros um q EQ.
    cbn [mob_step mob_blocks mo_lm mo_um]. rewrite E. cbn [bind mi_chan ms_step]. rewrite (AA b FB). cbn [bind fold_left lms_configure]. fold lm1. rewrite EQ. cbn [bind].
    unfold mob_upper. cbn [mo_um mo_lm ms_run ms_step mi_chan]. rewrite (AA b FB). cbn [bind]. destruct (ms_run q um) as [[u out]| |]; reflexivity. }
  assert (ONE : forall p r c num ty air msg code', holds_msg c code' air msg -> block_of ty num air p -> code' = match c with Bsch => Scrambler.SCRAMB_INIT | _ => code end -> (ty = TySB1 <-> c = Bsch) -> match c with Bsch | SchHd | SchF | Bnch => True | _ => False end -> lms_channel p lm1 = Ok c ->
    exists e, brings t c num code' msg e /\ forall um q, mob_blocks r (mk_mobile lm1 um) = Ok (mk_mobile lm1 um, q, []) -> mob_blocks (p :: r) (mk_mobile lm1 um) = Ok (mk_mobile lm1 um, e :: q, [])).
  { intros p r c num ty air msg code' H BO -> SB CH CC. destruct (cp_heard code ty num c air msg p lm1 t H BO SB CH C1 T1 CC) as (e & BR & E). exists e. split; [exact BR|]. intros um q EQ.
    cbn [mob_blocks mo_lm]. rewrite E. cbn [bind]. destruct BR as (b & _ & ->). cbn [mi_chan]. rewrite EQ. cbn [bind]. destruct c; try contradiction CH; reflexivity. }
  assert (CHAN : forall p ty num air, block_of ty num air p -> ty = TySB2 \/ ty = TyNDB -> (num = Block1 -> is_mandatory_bsch t = false) -> speech x = false ->
    lms_channel p lm1 = Ok (if match ty with TySB2 => is_mandatory_bnch t | _ => false end then Bnch else match num with BothBlocks => SchF | _ => SchHd end)).
  { intros p ty num air (TY & NU & _) HT HB SP. unfold lms_channel. rewrite TY, NU, N1. cbn [lms_traffic lm1]. rewrite SP.
    assert (A : (is_mandatory_bsch t && match num with Block1 => true | _ => false end) = false) by (destruct num; rewrite ?andb_false_r; auto; now rewrite HB).
    destruct HT as [-> | ->]; rewrite A; cbn [negb bind]; [destruct (is_mandatory_bnch t)|]; reflexivity. }
  assert (SKIP : forall p r ty num air, block_of ty num air p -> ty = TyNDB -> speech x = true -> is_mandatory_bsch t = false -> forall um q, mob_blocks r (mk_mobile lm1 um) = Ok (mk_mobile lm1 um, q, []) -> mob_blocks (p :: r) (mk_mobile lm1 um) = Ok (mk_mobile lm1 um, q, [])).
  { intros p r ty num air BO HT SP NB um q EQ. cbn [mob_blocks mo_lm]. rewrite (speech_skipped p lm1 ty num air BO HT); [exact EQ|exact SP|]. rewrite N1. congruence. }
  assert (NIL : forall um, mob_blocks [] (mk_mobile lm1 um) = Ok (mk_mobile lm1 um, [], [])) by reflexivity.
  assert (MF : x <> KSync -> is_mandatory_bsch t = false) by (intros NX; destruct (is_mandatory_bsch t); [now specialize (MB eq_refl)|reflexivity]).
  unfold slot_brings. destruct x; cbn [demodulated speech] in *.
  - destruct OA as (HA & _). destruct D as (p0 & p1 & -> & B0 & B1). destruct (BB _ _ [p1] HA B0) as (e0 & R0 & X). exists [e0]. split; [exists e0, []; auto|]. intros um. apply (X um). apply (SKIP _ _ _ _ _ B1 eq_refl eq_refl (MF ltac:(discriminate))). apply NIL.
  - destruct OA as (HA & _). destruct D as (p0 & p1 & p2 & -> & B0 & B1 & B2). destruct (BB _ _ [p1; p2] HA B0) as (e0 & R0 & X). exists [e0]. split; [exists e0, []; auto|]. assert (NM := MF ltac:(discriminate)).
    intros um. apply (X um). apply (SKIP _ _ _ _ _ B1 eq_refl eq_refl NM), (SKIP _ _ _ _ _ B2 eq_refl eq_refl NM). apply NIL.
  - destruct OA as (HA & _ & H1). destruct D as (p0 & p1 & -> & B0 & B1). destruct (BB _ _ [p1] HA B0) as (e0 & R0 & X).
    destruct (ONE p1 [] SchF BothBlocks TyNDB _ _ _ H1 B1 eq_refl ltac:(split; discriminate) Logic.I (CHAN _ _ _ _ B1 (or_intror eq_refl) ltac:(discriminate) eq_refl)) as (e1 & R1 & E1).
    exists [e0; e1]. split; [exists e0, [e1]; split; [reflexivity|]; split; [exact R0|exists e1; auto]|]. intros um. apply (X um). apply E1. apply NIL.
  - destruct OA as (_ & H1 & H2 & HA). destruct D as (p0 & p1 & p2 & -> & B0 & B1 & B2). destruct (BB _ _ [p1; p2] HA B0) as (e0 & R0 & X).
    assert (CC : lms_channel p1 lm1 = Ok Bsch) by (unfold lms_channel; now rewrite (proj1 B1)).
    destruct (ONE p1 [p2] Bsch Block1 TySB1 _ _ _ H1 B1 eq_refl ltac:(split; reflexivity) Logic.I CC) as (e1 & R1 & E1).
    pose proof (CHAN _ _ _ _ B2 (or_introl eq_refl) ltac:(discriminate) eq_refl) as C2. cbn match in C2.
    assert (H2' : holds_msg (if is_mandatory_bnch t then Bnch else SchHd) code (part w 282 216) msg2) by (destruct (is_mandatory_bnch t); [exact H2|intros r b NR FR; rewrite <- bnch_hd; exact (H2 r b NR FR)]).
    destruct (ONE p2 [] (if is_mandatory_bnch t then Bnch else SchHd) Block2 TySB2 _ _ _ H2' B2) as (e2 & R2 & E2); [destruct (is_mandatory_bnch t); reflexivity|destruct (is_mandatory_bnch t); split; discriminate|destruct (is_mandatory_bnch t); exact Logic.I|exact C2|].
    exists [e0; e1; e2]. split; [exists e0, [e1; e2]; split; [reflexivity|]; split; [exact R0|exists e1, e2; auto]|]. intros um. apply (X um). apply E1, E2. apply NIL.
  - destruct OA as (HA & _ & H1 & H2). destruct D as (p0 & p1 & p2 & -> & B0 & B1 & B2). destruct (BB _ _ [p1; p2] HA B0) as (e0 & R0 & X). assert (NM := MF ltac:(discriminate)).
    destruct (ONE p1 [p2] SchHd Block1 TyNDB _ _ _ H1 B1 eq_refl ltac:(split; discriminate) Logic.I (CHAN _ _ _ _ B1 (or_intror eq_refl) (fun _ => NM) eq_refl)) as (e1 & R1 & E1).
    assert (H2' : holds_msg SchHd code (part w 282 216) msg2) by (intros r b NR FR; rewrite <- bnch_hd; exact (H2 r b NR FR)).
    destruct (ONE p2 [] SchHd Block2 TyNDB _ _ _ H2' B2 eq_refl ltac:(split; discriminate) Logic.I (CHAN _ _ _ _ B2 (or_intror eq_refl) ltac:(discriminate) eq_refl)) as (e2 & R2 & E2).
    exists [e0; e1; e2]. split; [exists e0, [e1; e2]; split; [reflexivity|]; split; [exact R0|exists e1, e2; auto]|]. intros um. apply (X um). apply E1, E2. apply NIL.
Qed.
