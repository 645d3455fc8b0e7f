(** Proofs about the network time element. *)
From Verif Require Import Base NetworkTime NetworkTimeSpec.
Open Scope Z_scope.

Lemma lor_shift a b k : 0 <= k -> 0 <= b < 2 ^ k -> Z.lor (Z.shiftl a k) b = a * 2 ^ k + b.
Proof.
  intros Hk Hb. rewrite <- Z.lxor_lor, <- Z.add_nocarry_lxor; [now rewrite Z.shiftl_mul_pow2| |].
  all: apply Z.bits_inj'; intros i Hi; rewrite Z.land_spec, Z.bits_0;
    destruct (Z.ltb_spec i k);
    [rewrite Z.shiftl_spec_low by assumption; reflexivity|
     rewrite (Z.testbit_eqb b) by lia;
     replace (b / 2 ^ i) with 0 by (symmetry; apply Z.div_small; split; [lia|];
       apply Z.lt_le_trans with (2 ^ k); [lia|apply Z.pow_le_mono_r; lia]);
     now rewrite andb_false_r].
Qed.

Lemma encode_value year secs off : 2000 <= year < 2064 -> 0 <= secs < 366 * 86400 -> Z.abs off < 64 * 900 ->
  encode_network_time year secs off =
  (((secs / 2 * 2 + (if off <? 0 then 1 else 0)) * 64 + Z.abs off / 900) * 64 + (year - 2000)) * 2048 + 2047.
Proof.
  intros Hy Hs Ho. unfold encode_network_time.
  rewrite Z.quot_div_nonneg by lia. change 16777215 with (Z.ones 24). change 63 with (Z.ones 6).
  rewrite !Z.land_ones by lia. change (2 ^ 64) with 18446744073709551616. change (2 ^ 24) with 16777216. change (2 ^ 6) with 64.
  rewrite (Z.mod_small (secs / 2) 18446744073709551616) by lia. rewrite (Z.mod_small (secs / 2) 16777216) by lia.
  rewrite (Z.mod_small (Z.abs off / 900) 64) by (Z.to_euclidean_division_equations; lia). rewrite (Z.mod_small (year - 2000) 18446744073709551616) by lia. rewrite (Z.mod_small (year - 2000) 64) by lia.
  set (s := if off <? 0 then 1 else 0). assert (Hs' : 0 <= s <= 1) by (unfold s; destruct (off <? 0); lia).
  set (u := secs / 2). set (m := Z.abs off / 900). set (y := year - 2000).
  assert (0 <= m < 64) by (unfold m; lia). assert (0 <= y < 64) by (unfold y; lia). clearbody s u m y.
  replace (Z.shiftl u 24) with (Z.shiftl (Z.shiftl u 1) 23) by (rewrite Z.shiftl_shiftl by lia; reflexivity).
  rewrite <- Z.shiftl_lor. rewrite (lor_shift u s 1) by (change (2 ^ 1) with 2; lia). change (2 ^ 1) with 2.
  replace (Z.shiftl (u * 2 + s) 23) with (Z.shiftl (Z.shiftl (u * 2 + s) 6) 17) by (rewrite Z.shiftl_shiftl by lia; reflexivity).
  rewrite <- Z.shiftl_lor. rewrite (lor_shift (u * 2 + s) m 6) by (change (2 ^ 6) with 64; lia). change (2 ^ 6) with 64.
  replace (Z.shiftl ((u * 2 + s) * 64 + m) 17) with (Z.shiftl (Z.shiftl ((u * 2 + s) * 64 + m) 6) 11) by (rewrite Z.shiftl_shiftl by lia; reflexivity).
  rewrite <- Z.shiftl_lor. rewrite (lor_shift ((u * 2 + s) * 64 + m) y 6) by (change (2 ^ 6) with 64; lia). change (2 ^ 6) with 64.
  rewrite lor_shift by (change (2 ^ 11) with 2048; lia). reflexivity.
Qed.

Lemma network_time_decodes year secs off : 2000 <= year < 2064 -> 0 <= secs < 366 * 86400 -> Z.abs off < 64 * 900 ->
  let v := encode_network_time year secs off in
  let d := read_network_time v in
  0 <= v < 2 ^ 48 /\
  2 * nt_utc d <= secs < 2 * nt_utc d + 2 /\
  (nt_negative d = true <-> off < 0) /\
  900 * nt_offset d <= Z.abs off < 900 * nt_offset d + 900 /\
  2000 + nt_year d = year /\ nt_reserved d = 2047.
Proof.
  intros Hy Hs Ho. cbv zeta. rewrite encode_value by assumption.
  unfold read_network_time, field. cbn [nt_utc nt_negative nt_offset nt_year nt_reserved].
  change (48 - 0 - 24) with 24. change (48 - 24 - 1) with 23. change (48 - 25 - 6) with 17. change (48 - 31 - 6) with 11. change (48 - 37 - 11) with 0.
  change (2 ^ 48) with 281474976710656. change (2 ^ 24) with 16777216. change (2 ^ 23) with 8388608. change (2 ^ 17) with 131072.
  change (2 ^ 11) with 2048. change (2 ^ 0) with 1. change (2 ^ 1) with 2. change (2 ^ 6) with 64.
  destruct (Z.ltb_spec off 0); repeat split; try lia.
Qed.
