(** Round trips of the basic link PDU headers. *)
From Verif Require Import Base BitsLib BitBuffer BitBufferProofs BitBufferOps Codec CodecProofs Layout LayoutProofs LlcPdus LlcPdusSpec.
Open Scope N_scope.

Lemma bit_cases v : v < 2 -> v = 0 \/ v = 1.
Proof. lia. Qed.
Lemma type_bits f t : (t < 4)%N -> enc [bl_type f t] = enc [(0, 1%nat); fl f; (t, 2%nat)].
Proof. intros T. assert (C : t = 0 \/ t = 1 \/ t = 2 \/ t = 3) by lia. destruct C as [->|[->|[->| ->]]], f; reflexivity. Qed.
Lemma carries_enc {A} w (r : reader A) y L L' : enc L = enc L' -> carries w r y L -> carries w r y L'.
Proof. unfold carries. intros E [H1 H2]. rewrite <- E. split; assumption. Qed.
Lemma type_tail f t L : (t < 4)%N -> enc ((0, 1%nat) :: fl f :: (t, 2%nat) :: L) = enc (bl_type f t :: L).
Proof.
  intros T. change ((0, 1%nat) :: fl f :: (t, 2%nat) :: L) with ([(0, 1%nat); fl f; (t, 2%nat)] ++ L). change (bl_type f t :: L) with ([bl_type f t] ++ L).
  rewrite !enc_app, (type_bits f t T). reflexivity.
Qed.
Lemma ba_carries p : ba_nr p < 2 -> carries (ba_write p) ba_read p (ba_layout p).
Proof.
  intros H. destruct p as [f nr]. cbn [ba_nr] in H. eapply carries_enc; [apply (type_tail f 3 [(nr, 1%nat)]); lia|].
  apply carries_intro; [|unfold ba_write; cbn [ba_fcs ba_nr]; repeat wl1|unfold ba_read; repeat rl1].
  destruct (bit_cases nr H) as [-> | ->], f; reflexivity.
Qed.
Lemma bad_carries p : bad_nr p < 2 -> bad_ns p < 2 -> carries (bad_write p) bad_read p (bad_layout p).
Proof.
  intros H1 H2. destruct p as [f nr ns]. cbn [bad_nr bad_ns] in *. eapply carries_enc; [apply (type_tail f 0 [(nr, 1%nat); (ns, 1%nat)]); lia|].
  apply carries_intro; [|unfold bad_write; cbn [bad_fcs bad_nr bad_ns]; repeat wl1|unfold bad_read; repeat rl1].
  destruct (bit_cases nr H1) as [-> | ->], (bit_cases ns H2) as [-> | ->], f; reflexivity.
Qed.
Lemma bd_carries p : bd_ns p < 2 -> carries (bd_write p) bd_read p (bd_layout p).
Proof.
  intros H. destruct p as [f ns]. cbn [bd_ns] in H. eapply carries_enc; [apply (type_tail f 1 [(ns, 1%nat)]); lia|].
  apply carries_intro; [|unfold bd_write; cbn [bd_fcs bd_ns]; repeat wl1|unfold bd_read; repeat rl1].
  destruct (bit_cases ns H) as [-> | ->], f; reflexivity.
Qed.
Lemma bu_carries p : carries (bu_write p) bu_read p (bu_layout p).
Proof.
  destruct p as [f]. eapply carries_enc; [apply (type_tail f 2 []); lia|].
  apply carries_intro; [|unfold bu_write; cbn [bu_fcs]; repeat wl1|unfold bu_read; repeat rl1].
  destruct f; reflexivity.
Qed.
