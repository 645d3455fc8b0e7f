(** The downlink scheduler: grants and acknowledgements are merged into the waiting messages. *)
From Coq Require Import Arith.
From Verif Require Import Base BitsLib BitBuffer BitBufferProofs BitBufferOps Codec CodecProofs MacFields MacPdus Layout LayoutProofs
  MacSpec MacPdusProofs FillBits BsFrag FragSpec FillProofs FragProofs TxReceipt TdmaTime DlSched DlSchedSpec DlChunk DlBuild.
Open Scope nat_scope.

Definition legal (e : dl_elem) : Prop :=
  match e with
  | DlResource p sdu rep => good_message p sdu rep
  | DlFrag f => fg_ok f
  | DlGrant a g => sendable (short_hdr a (Some g) false)
  | DlAck a => sendable (short_hdr a None true)
  | DlBroadcast | DlSteal _ _ => False
  end.
Definition sim (e : dl_elem) (w : wish) : Prop :=
  match e with DlResource p sdu rep => header p = header (w_hdr w) /\ remaining sdu = w_bits w /\ rep = w_rep w | _ => False end.

Lemma header_ssi p p' : header p = header p' -> option_map ad_ssi (mr_addr p) = option_map ad_ssi (mr_addr p').
Proof.
  intros H. apply (f_equal mr_addr) in H. cbn [header mr_addr] in H. destruct (mr_addr p), (mr_addr p'); try discriminate; [|reflexivity].
  cbn [option_map] in *. injection H as H _ _. now rewrite H.
Qed.
Lemma with_note_header n p p' : header p = header p' -> header (with_note n p) = header (with_note n p').
Proof. intros H. unfold header in H. injection H as A B C D E F G H I. unfold with_note, header. destruct (snd n); cbn [mr_pog mr_encmode mr_raf mr_addr mr_el mr_um mr_pc mr_sg mr_ca]; congruence. Qed.
Lemma header_width p p' : header p = header p' -> width (mr_layout p) = width (mr_layout p').
Proof.
  assert (Q : forall p, width (mr_layout p) = width (mr_layout (header p))).
  { clear. intros p. unfold mr_layout. assert (EN : mr_is_null (header p) = mr_is_null p) by (unfold mr_is_null, header; cbn [mr_addr mr_el mr_um]; destruct (mr_addr p); reflexivity).
    rewrite EN. rewrite !width_app. f_equal. f_equal.
    unfold mr_addr_layout. cbn [header mr_addr mr_el mr_um]. destruct (mr_addr p) as [a|], (mr_el p), (mr_um p); reflexivity. }
  intros H. rewrite (Q p), (Q p'), H. reflexivity.
Qed.

Lemma grant_sendable p g a : sendable p -> sendable (short_hdr a (Some g) false) -> sendable (mr_set_grant p g).
Proof.
  intros (V & N0) (V2 & _). split; [|exact N0].
  unfold mr_valid in V, V2 |- *. cbn [mr_sg mr_ca mr_len short_hdr mr_set_grant mr_pog mr_encmode mr_raf mr_addr mr_el mr_um mr_pc] in *. splitb.
  rewrite !andb_true_iff. repeat split; try assumption.
  - unfold mr_layout in *. unfold mr_is_null in *. cbn [mr_sg mr_ca mr_len mr_fill short_hdr mr_set_grant mr_pog mr_encmode mr_raf mr_addr mr_el mr_um mr_pc mr_addr_layout] in *.
    rewrite N0 in *. rewrite !fits_app in *. splitb. rewrite !andb_true_iff. repeat split; assumption.
  - unfold mr_addr_valid, mr_is_null in *. cbn [mr_set_grant mr_sg mr_ca mr_len mr_fill mr_pog mr_encmode mr_raf mr_addr mr_el mr_um mr_pc] in *.
    destruct (mr_addr p), (mr_el p), (mr_um p); try assumption. discriminate.
Qed.
Lemma ack_sendable p : sendable p -> sendable (mr_set_ack p).
Proof.
  intros (V & N0). split; [|exact N0].
  unfold mr_valid in V |- *. cbn [mr_sg mr_ca mr_len mr_set_ack mr_pog mr_encmode mr_raf mr_addr mr_el mr_um mr_pc] in *. splitb.
  rewrite !andb_true_iff. repeat split; try assumption.
  - unfold mr_layout in *. unfold mr_is_null in *. cbn [mr_sg mr_ca mr_len mr_fill mr_set_ack mr_pog mr_encmode mr_raf mr_addr mr_el mr_um mr_pc mr_addr_layout] in *.
    rewrite N0 in *. rewrite !fits_app in *. splitb. rewrite !andb_true_iff. repeat split; try assumption.
    unfold fits in *. cbn [forallb fst snd fl] in *. splitb. rewrite !andb_true_iff. repeat split; assumption.
  - unfold mr_addr_valid, mr_is_null in *. cbn [mr_set_ack mr_sg mr_ca mr_len mr_fill mr_pog mr_encmode mr_raf mr_addr mr_el mr_um mr_pc] in *.
    destruct (mr_addr p), (mr_el p), (mr_um p); try assumption. discriminate.
Qed.
Lemma grant_width p g : mr_is_null p = false -> width (mr_layout (mr_set_grant p g)) = match mr_sg p with Some _ => width (mr_layout p) | None => width (mr_layout p) + 8 end.
Proof.
  intros N0. unfold mr_layout. unfold mr_is_null in *. cbn [mr_set_grant mr_addr mr_el mr_um mr_pc mr_sg mr_ca mr_fill mr_pog mr_encmode mr_raf mr_len]. rewrite N0. rewrite !width_app.
  change (mr_addr_layout (mr_set_grant p g)) with (mr_addr_layout p).
  assert (Q : forall g, width (optl (Some g) sg_layout) = 9) by reflexivity. rewrite Q. destruct (mr_sg p); [rewrite Q; reflexivity|].
  assert (Q2 : width (optl None sg_layout) = 1) by reflexivity. rewrite Q2. unfold layout in *. lia.
Qed.
Lemma not_cut_8 h s : not_cut h s -> not_cut (h + 8) s.
Proof. unfold not_cut. replace (h + 8 + s) with (h + s + 1 * 8) by lia. rewrite Nat.mod_add by lia. auto. Qed.

Lemma grant_good p sdu rep g a : good_message p sdu rep -> sendable (short_hdr a (Some g) false) -> good_message (mr_set_grant p g) sdu rep.
Proof.
  intros (S & W & P & R & C) G. split; [exact (grant_sendable p g a S G)|]. repeat (split; [assumption|]). rewrite grant_width by apply S.
  destruct (mr_sg p); [assumption|]. now apply not_cut_8.
Qed.
Lemma ack_good p sdu rep : good_message p sdu rep -> good_message (mr_set_ack p) sdu rep.
Proof. intros (S & W & P & R & C). split; [exact (ack_sendable p S)|]. repeat (split; [assumption|]). exact C. Qed.

Lemma split_spec ssi q : match split_resource ssi q with
  | Some (l, (p, sdu, rep), r) => q = l ++ DlResource p sdu rep :: r /\ option_map ad_ssi (mr_addr p) = Some ssi /\
      Forall (fun e => match e with DlResource p _ _ => option_map ad_ssi (mr_addr p) <> Some ssi | _ => True end) l
  | None => Forall (fun e => match e with DlResource p _ _ => option_map ad_ssi (mr_addr p) <> Some ssi | _ => True end) q
  end.
Proof.
  induction q as [|e q IH]; [constructor|]. cbn [split_resource].
  assert (NX : match e with DlResource p _ _ => option_map ad_ssi (mr_addr p) <> Some ssi | _ => True end ->
    match match split_resource ssi q with Some (l, x, r) => Some (e :: l, x, r) | None => None end with
    | Some (l, (p, sdu, rep), r) => e :: q = l ++ DlResource p sdu rep :: r /\ option_map ad_ssi (mr_addr p) = Some ssi /\
        Forall (fun e => match e with DlResource p _ _ => option_map ad_ssi (mr_addr p) <> Some ssi | _ => True end) l
    | None => Forall (fun e => match e with DlResource p _ _ => option_map ad_ssi (mr_addr p) <> Some ssi | _ => True end) (e :: q)
    end).
  { intros HN. destruct (split_resource ssi q) as [[[l [[p sdu] rep]] r]|]; [|now constructor].
    destruct IH as (-> & A & B). split; [reflexivity|]. split; [assumption|]. now constructor. }
  destruct e as [|a|a g|p sdu rep|f|b rep]; try (exact (NX Logic.I)).
  destruct (mr_addr p) as [a|] eqn:EA; [|apply NX; discriminate].
  destruct (N.eqb_spec (ad_ssi a) ssi) as [EQ|NE].
  - split; [reflexivity|]. split; [rewrite EA; cbn [option_map]; congruence|constructor].
  - apply NX. cbn [option_map]. congruence.
Qed.
Lemma to_ssi_true ssi w : to_ssi ssi w = true <-> option_map ad_ssi (mr_addr (w_hdr w)) = Some ssi.
Proof. unfold to_ssi. destruct (mr_addr (w_hdr w)); cbn [option_map]; [|split; discriminate]. rewrite N.eqb_eq. split; congruence. Qed.

Lemma attach_miss n l l' : Forall2 sim l l' -> Forall (fun e => match e with DlResource p _ _ => option_map ad_ssi (mr_addr p) <> Some (ad_ssi (fst n)) | _ => True end) l ->
  forall r, attach n (l' ++ r) = l' ++ attach n r.
Proof.
  intros F. induction F as [|e w l l' S F IH]; intros M r; [reflexivity|]. inversion M; subst. cbn [app attach].
  destruct (to_ssi (ad_ssi (fst n)) w) eqn:T; [|now rewrite IH].
  exfalso. apply to_ssi_true in T. destruct e; try contradiction. destruct S as (S & _). apply header_ssi in S. congruence.
Qed.

Lemma integrate_one_spec q e fresh : forallb busy q = true -> Forall legal q -> is_note e = true -> legal e ->
  Forall2 sim (filter is_resource q) fresh ->
  exists q', integrate_one q e = Ok q' /\ forallb busy q' = true /\ Forall legal q' /\ filter is_frag q' = filter is_frag q /\
    Forall2 sim (filter is_resource q') (fold_left (fun l n => attach n l) (notes_of e) fresh).
Proof.
  intros HB HL HN HE HS. unfold integrate_one.
  assert (exists n a, notes_of e = [n] /\ fst n = a /\ (match e with DlGrant a _ | DlAck a => Ok a | _ => @Panic tetra_addr end) = Ok a /\
     (forall p, match e with DlGrant _ g => mr_set_grant p g | _ => mr_set_ack p end = with_note n p) /\
     (forall p sdu rep, good_message p sdu rep -> good_message (with_note n p) sdu rep) /\
     exists p', (match e with DlGrant _ g => dl_make_minimal_resource a (Some g) false | _ => dl_make_minimal_resource a None true end) = Ok p' /\
       header p' = header (w_hdr (own n)) /\ sendable p') as (n & a & EN & EA & EM & EW & GW & p' & EP & HP & SP).
  { destruct e as [|a|a g|p sdu rep|f|b rep]; try discriminate.
    - exists (a, None), a. repeat (split; [reflexivity|]). split; [intros; now apply ack_good|]. eexists. split; [reflexivity|]. split; [reflexivity|exact HE].
    - exists (a, Some g), a. repeat (split; [reflexivity|]). split; [intros p sdu rep G; exact (grant_good p sdu rep g a G HE)|]. eexists. split; [reflexivity|]. split; [reflexivity|exact HE]. }
  rewrite EM. cbn [bind]. rewrite EN. cbn [fold_left]. rewrite <- EA.
  pose proof (split_spec (ad_ssi (fst n)) q) as SS. destruct (split_resource (ad_ssi (fst n)) q) as [[[l [[p sdu] rep]] r]|].
  - destruct SS as (-> & A & B). eexists. split; [reflexivity|]. rewrite EW.
    rewrite forallb_app in *. cbn [forallb] in *. split; [exact HB|].
    apply Forall_app in HL. destruct HL as (H1 & H2). inversion H2 as [|? ? H3 H4]; subst.
    split; [apply Forall_app; split; [assumption|constructor; [apply GW, H3|assumption]]|].
    rewrite !filter_app in *. cbn [filter is_frag is_resource] in *. split; [reflexivity|].
    apply Forall2_app_inv_l in HS. destruct HS as (f1 & f2 & S1 & S2 & ->). inversion S2 as [|? w ? f3 S3 S4]; subst.
    rewrite (attach_miss n _ _ S1).
    2:{ clear - B. induction l as [|e l IH]; [constructor|]. inversion B; subst. cbn [filter]. destruct (is_resource e); auto. }
    cbn [attach]. destruct S3 as (S3 & S5 & S6).
    assert (T : to_ssi (ad_ssi (fst n)) w = true) by (apply to_ssi_true; rewrite <- (header_ssi _ _ S3); exact A).
    rewrite T. apply Forall2_app; [assumption|]. constructor; [|assumption].
    cbn [sim w_hdr w_bits w_rep]. split; [now apply with_note_header|]. auto.
  - rewrite EA, EP. cbn [bind]. eexists. split; [reflexivity|]. rewrite forallb_app. split; [rewrite HB; reflexivity|].
    split.
    { apply Forall_app. split; [assumption|]. constructor; [|constructor]. cbn [legal]. split; [assumption|]. split; [apply wf_new|]. split; [reflexivity|]. split; [exact Logic.I|]. left. reflexivity. }
    rewrite !filter_app. cbn [filter is_frag is_resource]. split; [apply app_nil_r|].
    rewrite <- (app_nil_r fresh), (attach_miss n _ _ HS).
    2:{ clear - SS. induction q as [|e l IH]; [constructor|]. inversion SS; subst. cbn [filter]. destruct (is_resource e); auto. }
    apply Forall2_app; [assumption|]. cbn [attach]. constructor; [|constructor]. cbn [sim]. split; [exact HP|]. split; reflexivity.
Qed.
Lemma integrate_all_spec notes : forall q fresh, forallb busy q = true -> Forall legal q -> forallb is_note notes = true -> Forall legal notes ->
  Forall2 sim (filter is_resource q) fresh ->
  exists q', integrate_all q notes = Ok q' /\ forallb busy q' = true /\ Forall legal q' /\ filter is_frag q' = filter is_frag q /\
    Forall2 sim (filter is_resource q') (fold_left (fun l n => attach n l) (flat_map notes_of notes) fresh).
Proof.
  induction notes as [|e t IH]; intros q fresh HB HL HN HE HS.
  - exists q. cbn [integrate_all flat_map fold_left]. auto.
  - cbn [forallb] in HN. apply andb_prop in HN. destruct HN as (N1 & N2). inversion HE as [|? ? E1 E2]; subst. cbn [integrate_all flat_map]. rewrite fold_left_app.
    destruct (integrate_one_spec q e fresh HB HL N1 E1 HS) as (q1 & -> & B1 & L1 & F1 & S1). cbn [bind].
    destruct (IH q1 _ B1 L1 N2 E2 S1) as (q2 & E & B2 & L2 & F2 & S2). exists q2. rewrite <- F1. auto.
Qed.
