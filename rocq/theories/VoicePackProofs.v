(** Proofs about the speech block conversions. *)
From Verif Require Import Base BitsLib BitBuffer BitBufferProofs BitBufferOps VoicePack.
Open Scope nat_scope.

Lemma tb_land1 x j : N.testbit (N.land x 1) (N.of_nat j) = (j =? 0) && N.odd x.
Proof.
  rewrite N.land_spec. destruct j as [|j]; [change (N.of_nat 0) with 0%N; rewrite N.bit0_odd; cbn; now rewrite andb_true_r|].
  replace (N.testbit 1 (N.of_nat (S j))) with false; [now rewrite andb_false_r|].
  symmetry. change 1%N with (2 ^ 0)%N. apply N.pow2_bits_false. lia.
Qed.

Lemma pack_byte_spec bits c : 274 <= length bits -> forall n bit byte, bit + n = 8 -> isbyte byte ->
  exists r, pack_byte bits c bit n byte = Ok r /\ isbyte r /\
    forall j, j < 8 -> N.testbit r (N.of_nat (7 - j)) =
      N.testbit byte (N.of_nat (7 - j)) || ((bit <=? j) && (c * 8 + j <? 274) && N.odd (nth (c * 8 + j) bits 0%N)).
Proof.
  intros L. induction n as [|n IH]; intros bit byte H Hb; cbn [pack_byte].
  - exists byte. split; [reflexivity|]. split; [exact Hb|]. intros j Hj. destruct (Nat.leb_spec bit j); [lia|]. cbn. now rewrite orb_false_r.
  - unfold TCH_S_CAP. destruct (Nat.ltb_spec (c * 8 + bit) 274) as [C|C].
    + rewrite byte_at_ok by lia. cbn [bind].
      set (x := nth (c * 8 + bit) bits 0%N). set (byte' := N.lor byte (shl8 (N.land x 1) (7 - bit))).
      assert (TB : forall k, N.testbit byte' (N.of_nat k) = N.testbit byte (N.of_nat k) || ((k =? 7 - bit) && N.odd x)).
      { intros k. unfold byte'. rewrite N.lor_spec, tb_shl8. f_equal. rewrite tb_land1.
        destruct (Nat.leb_spec (7 - bit) k), (Nat.eqb_spec k (7 - bit)), (Nat.eqb_spec (k - (7 - bit)) 0), (Nat.ltb_spec k 8); try lia; cbn; try reflexivity;
          now rewrite ?andb_true_r, ?andb_false_r. }
      assert (Hb' : isbyte byte').
      { apply isbyte_intro. intros k Hk. rewrite TB, isbyte_testbit by assumption. destruct (Nat.eqb_spec k (7 - bit)); [lia|reflexivity]. }
      destruct (IH (S bit) byte' ltac:(lia) Hb') as (r & E & Hr & T). exists r. split; [exact E|]. split; [exact Hr|].
      intros j Hj. rewrite T by assumption. rewrite TB, <- orb_assoc. f_equal.
      destruct (Nat.eqb_spec (7 - j) (7 - bit)) as [Q|Q].
      * assert (j = bit) by lia. subst j. fold x. destruct (Nat.leb_spec (S bit) bit); [lia|]. destruct (Nat.leb_spec bit bit); [|lia].
        destruct (Nat.ltb_spec (c * 8 + bit) 274); [|lia]. cbn. now rewrite orb_false_r.
      * cbn [andb orb]. destruct (Nat.leb_spec (S bit) j), (Nat.leb_spec bit j); try lia; reflexivity.
    + cbn [bind]. destruct (IH (S bit) byte ltac:(lia) Hb) as (r & E & Hr & T). exists r. split; [exact E|]. split; [exact Hr|].
      intros j Hj. rewrite T by assumption.
      replace ((S bit <=? j) && (c * 8 + j <? 274)) with ((bit <=? j) && (c * 8 + j <? 274)); [reflexivity|].
      destruct (Nat.leb_spec (S bit) j), (Nat.leb_spec bit j), (Nat.ltb_spec (c * 8 + j) 274); try reflexivity; lia.
Qed.

Lemma pack_bytes_spec bits : 274 <= length bits -> forall n c,
  exists out, pack_bytes bits c n = Ok out /\ length out = n /\ Forall isbyte out /\
    forall i, i < 8 * n -> bit_at out i = (c * 8 + i <? 274) && N.odd (nth (c * 8 + i) bits 0%N).
Proof.
  intros L. induction n as [|n IH]; intros c; cbn [pack_bytes].
  - exists []. repeat split; [constructor|]. intros i Hi. lia.
  - destruct (pack_byte_spec bits c L 8 0 0%N eq_refl) as (r & E & Hr & T); [unfold isbyte; lia|]. rewrite E. cbn [bind].
    destruct (IH (S c)) as (out & E' & Lo & Fo & To). rewrite E'. cbn [bind]. exists (r :: out).
    split; [reflexivity|]. split; [cbn; lia|]. split; [now constructor|].
    intros i Hi. unfold bit_at in *. destruct (Nat.lt_ge_cases i 8) as [C|C].
    + rewrite Nat.div_small, Nat.mod_small by assumption. cbn [nth]. rewrite T by assumption. rewrite N.bits_0. reflexivity.
    + replace (i / 8) with (S ((i - 8) / 8)) by lia. cbn [nth]. replace (i mod 8) with ((i - 8) mod 8) by lia.
      rewrite To by lia. now replace (S c * 8 + (i - 8)) with (c * 8 + i) by lia.
Qed.

Lemma pack_bytes_bits s extra : length s = 274 -> exists out, pack_bytes (map N.b2n s ++ extra) 0 35 = Ok out /\ length out = 35 /\ Forall isbyte out /\ bits_rng out 0 274 = s.
Proof.
  intros L. destruct (pack_bytes_spec (map N.b2n s ++ extra)) with (n := 35) (c := 0) as (out & E & Lo & Fo & T); [rewrite app_length, map_length; lia|].
  exists out. split; [exact E|]. split; [exact Lo|]. split; [exact Fo|].
  apply (nth_ext _ _ false false); [now rewrite bits_rng_length|]. rewrite bits_rng_length. intros i Hi.
  rewrite nth_bits_rng by assumption. rewrite T by lia. cbn [Nat.mul Nat.add]. destruct (Nat.ltb_spec i 274); [|lia].
  rewrite app_nth1 by (rewrite map_length; lia). change 0%N with (N.b2n false) at 1. rewrite map_nth. cbn [andb]. now destruct (nth i s false).
Qed.

Lemma dl_block_bits out : Forall isbyte out -> 35 <= length out ->
  exists b, dl_speech_block out = Ok b /\ wf b /\ window b = bits_rng out 0 274.
Proof.
  intros F L. unfold dl_speech_block, set_raw_end, TCH_S_CAP. cbn [bb_from_vec bstart bpos].
  unfold cap, bb_from_vec. cbn [bytes bstart bpos bend autoexp].
  destruct (Nat.leb_spec (0 + 274) (length out * 8)); [|lia]. cbn [assert bind Nat.leb Nat.add].
  eexists. split; [reflexivity|]. unfold set_end, wf, window. cbn [bytes bstart bpos bend autoexp]. split; [|reflexivity].
  unfold cap. cbn [bytes]. repeat split; try lia. exact F.
Qed.

Lemma voice_loopback s extra : length s = 274 ->
  exists out b, pack_ul_acelp_bits (map N.b2n s ++ extra) = Ok (Some out) /\ length out = 35 /\
    dl_speech_block out = Ok b /\ to_bitstr b = Ok s.
Proof.
  intros L. destruct (pack_bytes_bits s extra L) as (out & E & Lo & F & B).
  destruct (dl_block_bits out F ltac:(lia)) as (b & Eb & W & Wb). exists out, b.
  split.
  - unfold pack_ul_acelp_bits, TCH_S_CAP, PACKED_TCH_S_BYTES. rewrite app_length, map_length, L.
    destruct (Nat.eqb_spec (274 + length extra) 35); [lia|]. destruct (Nat.ltb_spec (274 + length extra) 274); [lia|]. now rewrite E.
  - split; [exact Lo|]. split; [exact Eb|]. rewrite to_bitstr_spec by assumption. now rewrite Wb, B.
Qed.

Lemma voice_network s extra : length s = 274 ->
  exists ste block b, ul_voice_to_ste (map N.b2n s ++ extra) = Ok (Some ste) /\ length ste = 36 /\
    ste_to_acelp ste = Some block /\ dl_speech_block block = Ok b /\ to_bitstr b = Ok s.
Proof.
  intros L. destruct (pack_bytes_bits s extra L) as (out & E & Lo & F & B).
  destruct (dl_block_bits out F ltac:(lia)) as (b & Eb & W & Wb). exists (0%N :: out), out, b.
  split.
  - unfold ul_voice_to_ste. rewrite app_length, map_length, L.
    destruct (Nat.eqb_spec (274 + length extra) 36); [lia|]. destruct (Nat.eqb_spec (274 + length extra) 35); [lia|].
    destruct (Nat.ltb_spec (274 + length extra) 274); [lia|]. now rewrite E.
  - split; [cbn; lia|]. split; [unfold ste_to_acelp; cbn [length]; destruct (Nat.ltb_spec (S (length out)) 36); [lia|reflexivity]|].
    split; [exact Eb|]. rewrite to_bitstr_spec by assumption. now rewrite Wb, B.
Qed.

Lemma voice_packed_passthrough out : length out = 35 -> Forall isbyte out ->
  pack_ul_acelp_bits out = Ok (Some out) /\ ul_voice_to_ste out = Ok (Some (0%N :: out)) /\ ste_to_acelp (0%N :: out) = Some out /\
  exists b, dl_speech_block out = Ok b /\ to_bitstr b = Ok (bits_rng out 0 274).
Proof.
  intros L F. unfold pack_ul_acelp_bits, ul_voice_to_ste, ste_to_acelp, PACKED_TCH_S_BYTES. cbn [length tl]. rewrite L.
  split; [reflexivity|]. split; [reflexivity|]. split; [reflexivity|].
  destruct (dl_block_bits out F ltac:(lia)) as (b & Eb & W & Wb). exists b. split; [exact Eb|]. rewrite to_bitstr_spec by assumption. now rewrite Wb.
Qed.

Lemma voice_short_rejected bits : length bits < 274 ->
  (length bits <> 35 -> pack_ul_acelp_bits bits = Ok None) /\
  (length bits <> 35 -> length bits <> 36 -> ul_voice_to_ste bits = Ok None) /\
  (length bits < 36 -> ste_to_acelp bits = None).
Proof.
  intros L. unfold pack_ul_acelp_bits, ul_voice_to_ste, ste_to_acelp, PACKED_TCH_S_BYTES, TCH_S_CAP.
  repeat match goal with |- context [?a =? ?b] => destruct (Nat.eqb_spec a b) | |- context [?a <? ?b] => destruct (Nat.ltb_spec a b) end; repeat split; try lia; reflexivity.
Qed.

(** Blocks accepted for transmission always fill the speech block. *)
Lemma accepted_blocks_long bits out : Forall isbyte bits -> (pack_ul_acelp_bits bits = Ok (Some out) \/ ste_to_acelp bits = Some out) ->
  exists b, dl_speech_block out = Ok b /\ length (window b) = 274.
Proof.
  intros F H. assert (Q : Forall isbyte out /\ 35 <= length out).
  { destruct H as [H|H].
    - unfold pack_ul_acelp_bits, PACKED_TCH_S_BYTES, TCH_S_CAP in H. destruct (Nat.eqb_spec (length bits) 35); [injection H as <-; split; [exact F|lia]|].
      destruct (Nat.ltb_spec (length bits) 274); [discriminate H|].
      destruct (pack_bytes_spec bits ltac:(lia) 35 0) as (o & E & Lo & Fo & _). rewrite E in H. cbn [bind] in H. injection H as <-. split; [exact Fo|lia].
    - unfold ste_to_acelp in H. destruct (Nat.ltb_spec (length bits) 36); [discriminate H|]. injection H as <-.
      destruct bits as [|x t]; [cbn in *; lia|]. split; [exact (Forall_inv_tail F)|cbn in *; lia]. }
  destruct (dl_block_bits out (proj1 Q) (proj2 Q)) as (b & E & _ & W). exists b. split; [exact E|]. rewrite W. apply bits_rng_length.
Qed.
