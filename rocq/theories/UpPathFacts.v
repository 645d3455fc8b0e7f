(** The way up: final lemmas and examples. *)
From Coq Require Import Arith ZArith.
From Verif Require Import Base BitsLib BitBuffer BitBufferProofs BitBufferOps Codec TdmaTime TdmaTimeProofs MacFields MacPdus Layout MacSpec FragSpec FcsProofs
  Llc LlcSpec UlSched DlSched UmacPrecomps UmacBs UlBlockSpec UlBlockPdu UlBlockFacts MleBs UpPath UpPathSpec UpPathProofs.
From Verif Require Mobility CallControl DlFacts.
Open Scope nat_scope.

Definition room_for (outs : list um_out) (m : mle) : Prop := (ml_next m + N.of_nat (length (handed_up outs)) <= 4294967295)%N.
Lemma fine_sane i outs : vtime (tv_time i) -> Forall (out_fine i) outs -> Forall sane_out outs.
Proof. intros V F. induction F as [|o l H F IH]; constructor; [|exact IH]. destruct o; try exact H. destruct H as (-> & W). split; assumption. Qed.
Lemma kills_iff f : kills f = true <-> f = Dies.
Proof. destruct f; cbn [kills]; split; congruence. Qed.
Lemma alive_iff xs : existsb (fun x : tdma_time * tetra_addr * list bool => kills (fate_of (snd x))) xs = false <-> Forall (fun x => fate_of (snd x) <> Dies) xs.
Proof.
  induction xs as [|x xs IH]; cbn [existsb]; [split; [constructor|reflexivity]|]. rewrite Bool.orb_false_iff, IH. split.
  - intros (A & B). constructor; [|exact B]. intros E. apply kills_iff in E. congruence.
  - intros F. split; [|exact (Forall_inv_tail F)]. destruct (kills (fate_of (snd x))) eqn:E; [|reflexivity]. apply kills_iff in E. destruct (Forall_inv F E).
Qed.

Section Path.
Variables (c : cell_cfg) (u : umac) (i : tmv_ind) (pdu : bitbuf) (s : llc unit) (m : mle).
Hypotheses (R : reached c u) (W : wf pdu) (P : bpos pdu = bstart pdu) (V : vtime (tv_time i)) (C : on_channel i = true) (L : link_reached s).

Lemma path_ok u' outs : rx_tmv_unitdata_ind i pdu u = Ok (u', outs) -> room_for outs m -> Forall (fun x => fate_of (snd x) <> Dies) (handed_up outs) ->
  exists ups s' m', rx_block i pdu u s m = Ok (ups, u', s', m') /\ link_reached s' /\ get_all (handed_up outs) (ml_next m) ups (ml_next m').
Proof.
  intros E H A. pose proof (rise_spec outs s m L (fine_sane i outs V (block_fine c u i pdu u' outs R W P V C E)) H) as S.
  rewrite (proj2 (alive_iff _) A) in S. destruct S as (ups & s' & m' & S & L' & G). exists ups, s', m'. split; [|auto]. unfold rx_block. rewrite E. cbn [bind]. rewrite S. reflexivity.
Qed.
Lemma path_dies u' outs : rx_tmv_unitdata_ind i pdu u = Ok (u', outs) -> room_for outs m ->
  (rx_block i pdu u s m = Panic <-> exists t a l, In (t, a, l) (handed_up outs) /\ fate_of l = Dies).
Proof.
  intros E H. pose proof (rise_spec outs s m L (fine_sane i outs V (block_fine c u i pdu u' outs R W P V C E)) H) as S. unfold rx_block. rewrite E. cbn [bind].
  destruct (existsb (fun x => kills (fate_of (snd x))) (handed_up outs)) eqn:K.
  - rewrite S. split; [intros _|reflexivity]. apply existsb_exists in K. destruct K as (((t & a) & l) & I & K). exists t, a, l. split; [exact I|]. now apply kills_iff.
  - destruct S as (ups & s' & m' & S & _). rewrite S. cbn [bind]. split; [discriminate|]. intros (t & a & l & I & D). exfalso. apply alive_iff in K. exact (proj1 (Forall_forall _ _) K _ I D).
Qed.

(** A block of whole SDUs. *)
Lemma sdus_handed xs outs : Forall2 (is_sdu_of i) xs outs -> handed_up outs = map (fun x => (tv_time i, fst x, snd x)) xs.
Proof.
  induction 1 as [|x o xs outs (b & Wb & Pb & Eb & ->) F IH]; [reflexivity|]. unfold handed_up in *. cbn [flat_map map app]. rewrite IH. do 2 f_equal.
  rewrite <- Eb. unfold remaining, window. now rewrite Pb.
Qed.
Lemma sent_outs xs : block_sent (tv_chan i) (window pdu) (map (fun x => ASdu (fst x) (snd x)) xs) ->
  exists outs, rx_tmv_unitdata_ind i pdu u = Ok (u, outs) /\ handed_up outs = map (fun x => (tv_time i, fst x, snd x)) xs.
Proof. intros B. destruct (block_sdus c u i pdu xs R W P V C B) as (outs & E & F). exists outs. split; [exact E|exact (sdus_handed _ _ F)]. Qed.
Lemma path_sent xs : block_sent (tv_chan i) (window pdu) (map (fun x => ASdu (fst x) (snd x)) xs) -> (ml_next m + N.of_nat (length xs) <= 4294967295)%N ->
  Forall (fun x => fate_of (snd x) <> Dies) xs ->
  exists ups s' m', rx_block i pdu u s m = Ok (ups, u, s', m') /\ link_reached s' /\ get_all (map (fun x => (tv_time i, fst x, snd x)) xs) (ml_next m) ups (ml_next m').
Proof.
  intros B H A. destruct (sent_outs xs B) as (outs & E & HU). rewrite <- HU. apply path_ok; [exact E| |].
  - unfold room_for. rewrite HU, map_length. exact H.
  - rewrite HU. rewrite Forall_map. exact A.
Qed.
Lemma path_killed xs a l : block_sent (tv_chan i) (window pdu) (map (fun x => ASdu (fst x) (snd x)) xs) -> (ml_next m + N.of_nat (length xs) <= 4294967295)%N ->
  In (a, l) xs -> fate_of l = Dies -> rx_block i pdu u s m = Panic.
Proof.
  intros B H I D. destruct (sent_outs xs B) as (outs & E & HU). apply (path_dies u outs E).
  - unfold room_for. rewrite HU, map_length. exact H.
  - exists (tv_time i), a, l. split; [|exact D]. rewrite HU. apply in_map_iff. exists (a, l). split; [reflexivity|exact I].
Qed.
End Path.

(** * What a radio sends *)
(** BL-DATA and BL-ADATA without frame check sequence, then the discriminator and the message. *)
Definition bl_data (ns : bool) (x : list bool) : list bool := [false; false; false; true; ns] ++ x.
Definition bl_adata (nr ns : bool) (x : list bool) : list bool := [false; false; false; false; nr; ns] ++ x.
Definition for_mm (x : list bool) : list bool := [false; false; true] ++ x.
Definition for_cmce (x : list bool) : list bool := [false; true; false] ++ x.
Lemma fate_sent nr ns x : fate_of (bl_data ns (for_mm x)) = ForMm x /\ fate_of (bl_data ns (for_cmce x)) = ForCmce x /\
  fate_of (bl_adata nr ns (for_mm x)) = ForMm x /\ fate_of (bl_adata nr ns (for_cmce x)) = ForCmce x.
Proof. repeat split. Qed.
(** With a frame check sequence. *)
Lemma fate_fcs ns x y : length y = 32 -> bits_val y = fcs_of (for_cmce x) -> fate_of ([false; true; false; true; ns] ++ for_cmce x ++ y) = ForCmce (x ++ y).
Proof.
  intros Ly Vy. unfold fate_of. cbn [app ind_panics bl_parse for_cmce]. cbn [hdr_fcs andb LlcSpec.sdu_of length].
  replace (Datatypes.S (Datatypes.S (Datatypes.S (length (x ++ y)))) =? 32) with false by (symmetry; apply Nat.eqb_neq; rewrite app_length; lia).
  unfold bl_accept. cbn [bl_parse]. unfold fcs_fine. cbn [negb orb]. change (false :: true :: false :: x ++ y) with (for_cmce x ++ y).
  rewrite app_length, Ly, Nat.add_sub, firstn_app, Nat.sub_diag, firstn_all, skipn_app, skipn_all, Nat.sub_diag, app_nil_r. cbn [skipn app firstn]. rewrite Vy, N.eqb_refl.
  cbn [length for_cmce app]. reflexivity.
Qed.
Lemma fate_fcs_kept ns x y : length y = 32 -> bits_val y = fcs_of (for_cmce x) -> fate_of ([false; true; false; true; ns] ++ for_cmce x ++ y) = ForCmce (x ++ y) /\ x ++ y <> x.
Proof. intros L V. split; [now apply fate_fcs|]. intros E. apply (f_equal (@length bool)) in E. rewrite app_length in E. lia. Qed.
(** What stops the program. *)
Lemma fate_types l x y : x <> y -> fate_of (true :: true :: x :: y :: l) = Dies.
Proof. destruct x, y; try congruence; reflexivity. Qed.
Lemma fate_udata l : fate_of (false :: false :: true :: false :: l) = Dies.
Proof. reflexivity. Qed.
Lemma fate_no_data nr ns : fate_of (bl_data ns []) = Dies /\ fate_of (bl_adata nr ns []) = Dies.
Proof. split; reflexivity. Qed.
Lemma fate_packet ns l : fate_of (bl_data ns (true :: false :: false :: l)) = Dies.
Proof. reflexivity. Qed.
Lemma fate_only_fcs ns l : length l = 32 -> fate_of ([false; true; false; true; ns] ++ l) = Dies.
Proof. intros L. unfold fate_of. cbn [app ind_panics bl_parse hdr_fcs andb LlcSpec.sdu_of]. rewrite L. reflexivity. Qed.

(** * Examples *)
Lemma link_new : link_reached llc_new.
Proof. exists [], []. split; [reflexivity|]. split; [exact Logic.I|constructor]. Qed.
Definition ex_msgs : list (tetra_addr * list bool) := [(ex_radio, bl_data true (for_cmce (ex_text 19))); (ex_radio, bl_adata false true (for_mm (ex_text 31)))].
Definition ex_msg_block : list bool :=
  (enc (mdata_layout (ex_data 0 8)) ++ bl_data true (for_cmce (ex_text 19)) ++ pad 0) ++
  (enc (mdata_layout (ex_data 3 10)) ++ bl_adata false true (for_mm (ex_text 31)) ++ pad 3) ++ enc (mdata_layout (ex_data 0 0)) ++ repeat false 87.
Lemma ex_msg_sent : length ex_msg_block = 268 /\ block_sent UcSchF ex_msg_block (map (fun x => ASdu (fst x) (snd x)) ex_msgs).
Proof.
  split; [reflexivity|]. unfold ex_msg_block, ex_msgs. cbn [map fst snd].
  apply (bs_next UcSchF _ _ [ASdu ex_radio (bl_data true (for_cmce (ex_text 19)))] 64 [ASdu ex_radio (bl_adata false true (for_mm (ex_text 31)))]).
  - apply (s_data UcSchF (ex_data 0 8) ex_radio 8); try reflexivity; try lia; [now left|discriminate].
  - vm_compute. lia.
  - rewrite <- (app_nil_r [ASdu ex_radio (bl_adata false true (for_mm (ex_text 31)))]). apply (bs_next UcSchF _ _ [ASdu ex_radio (bl_adata false true (for_mm (ex_text 31)))] 80 []).
    + apply (s_data UcSchF (ex_data 3 10) ex_radio 10); try reflexivity; try lia; [now left|discriminate].
    + vm_compute. lia.
    + apply bs_none. apply (s_null UcSchF (ex_data 0 0) ex_radio); try reflexivity. now left.
Qed.
(** A block that stops the program: unacknowledged data. *)
Definition ex_killer : list bool := (enc (mdata_layout (ex_data 0 8)) ++ ([false; false; true; false] ++ ex_text 23) ++ pad 0) ++ enc (mdata_layout (ex_data 0 0)) ++ repeat false 167.
Lemma ex_killer_sent : length ex_killer = 268 /\ block_sent UcSchF ex_killer (map (fun x => ASdu (fst x) (snd x)) [(ex_radio, [false; false; true; false] ++ ex_text 23)]).
Proof.
  split; [reflexivity|]. unfold ex_killer. cbn [map fst snd]. rewrite <- (app_nil_r [ASdu ex_radio ([false; false; true; false] ++ ex_text 23)]). apply (bs_next UcSchF _ _ [ASdu ex_radio ([false; false; true; false] ++ ex_text 23)] 64 []).
  - apply (s_data UcSchF (ex_data 0 8) ex_radio 8); try reflexivity; try lia; [now left|discriminate].
  - vm_compute. lia.
  - apply bs_none. apply (s_null UcSchF (ex_data 0 0) ex_radio); try reflexivity. now left.
Qed.
