(** The parsers of the uplink PDUs of CMCE and MM: none panics on a message that is not dangerous. *)
From Verif Require Import Base BitsLib BitBuffer BitBufferProofs BitBufferOps Codec CodecProofs TypedFields TypedFieldsProofs TypedFieldsFacts
  CmceFields CmcePdus MmFields MmPdus Layer3Spec Layer3Parse.
Open Scope nat_scope.

Lemma from_bit {A} l a (k : bool -> reader A) : (forall x, x = bit a l -> from l (a + 1) (k x)) -> from l a (rbind read_obit k).
Proof. apply from_flag. Qed.
Lemma from_try {A B} l a (x : option A) (k : A -> reader B) : (forall v, from l a (k v)) -> from l a (rbind (r_try x) k).
Proof. intros H. destruct x as [v|]; [|intros b W E; exact I]. intros b W E. exact (H v b W E). Qed.
Lemma from_bsi {A} l a (k : bsi -> reader A) : (forall v, from l (a + 8) (k v)) -> from l a (rbind bsi_from_bitbuf k).
Proof.
  intros H. assert (good (skipn a l) (fun (_ : bsi) n => n = 8) bsi_from_bitbuf) as G.
  { unfold bsi_from_bitbuf. eapply good_bind; [apply good_field; lia|]. cbv beta. intros c n _ (-> & _).
    eapply good_bind; [apply good_flag|]. cbv beta. intros e n _ (-> & _).
    eapply good_bind; [apply good_field; lia|]. cbv beta. intros t n _ (-> & _).
    destruct (c =? 0)%N; (eapply good_bind; [apply good_field; lia|]; cbv beta; intros v n _ (-> & _); apply good_ret; reflexivity). }
  eapply good_bind; [exact G|]. cbv beta. intros x n _ ->. rewrite skipn_skipn'. apply H.
Qed.
Lemma from_tail {A} Q l a obit (r : reader A) : tail_ok Q obit r -> (obit = true -> clean Q (skipn a l)) -> from l a r.
Proof. intros T H. apply T. exact H. Qed.

(** Where the address of the called party ends. *)
Lemma party_end ty : (ty < 4)%N -> party ty =
  (if (ty =? Party_Sna)%N then 8 else 0) + (if ((ty =? Party_Ssi) || (ty =? Party_Tsi))%N%bool then 24 else 0) + (if (ty =? Party_Tsi)%N then 24 else 0).
Proof. intros H. unfold party, Party_Sna, Party_Ssi, Party_Tsi. destruct (N.eqb_spec ty 0), (N.eqb_spec ty 1), (N.eqb_spec ty 2); try lia; reflexivity. Qed.
Lemma field_bound a n l : (field a n l < 2 ^ N.of_nat n)%N.
Proof.
  unfold field. pose proof (bits_val_bound (firstn n (skipn a l))) as B. eapply N.lt_le_trans; [exact B|]. apply N.pow_le_mono_r; [lia|].
  pose proof (firstn_le_length n (skipn a l)). lia.
Qed.
Lemma from_party {A} l a ty (k : option N -> option N -> option N -> reader A) : ty = field (a - 2) 2 l ->
  (forall x y z, from l (a + party ty) (k x y z)) ->
  from l a (x <~ ropt (ty =? Party_Sna)%N (rfield 8) ;;
            y <~ ropt ((ty =? Party_Ssi) || (ty =? Party_Tsi))%N%bool (rfield 24) ;;
            z <~ ropt (ty =? Party_Tsi)%N (rfield 24) ;; k x y z).
Proof.
  intros E H. pose proof (field_bound (a - 2) 2 l) as B. rewrite <- E in B. rewrite (party_end ty B), !Nat.add_assoc in H.
  apply from_optf; [lia|]. intros x. apply from_optf; [lia|]. intros y. apply from_optf; [lia|]. intros z. apply H.
Qed.

(** User data of a short data message. *)
Lemma slice_loop_good : forall k n l acc, n <= 8 * k -> good l (fun x m => x <> None -> m = n) (fun b => read_slice_loop k n b acc).
Proof.
  induction k as [|k IH]; intros n l acc Hn b W E; cbn [read_slice_loop].
  - exists 0. rewrite adv_0. split; [reflexivity|]. split; [lia|]. intros _. lia.
  - set (j := Nat.min n 8). rewrite read_bits_opt_spec by (assumption || (subst j; lia)).
    destruct (Nat.leb_spec j (length (remaining b))) as [Lj|]; cbn [bind].
    + specialize (IH (n - j) (skipn j l) (acc ++ [shl8 (to_u8 (bits_val (firstn j (remaining b)))) (8 - j)]) ltac:(subst j; lia) (adv b j) (wf_adv _ _ W Lj)).
      rewrite remaining_adv, E in IH by assumption. specialize (IH eq_refl). rewrite E. cbv beta in IH.
      match type of IH with match ?t with _ => _ end => destruct t as [[x b']| |] end; [|exact I|exact IH].
      destruct IH as (m & -> & Lm & Em). exists (j + m). rewrite adv_adv. rewrite skipn_length in Lm. rewrite E in Lj. split; [reflexivity|]. split; [lia|].
      intros X. specialize (Em X). subst j. lia.
    + exists 0. rewrite adv_0. split; [reflexivity|]. split; [lia|]. intros X. now contradiction X.
Qed.
Lemma sds_good l : good l (fun _ n => n = user_data 0 l) sds_from_bitbuf.
Proof.
  unfold sds_from_bitbuf. eapply good_bind; [apply good_field; lia|]. cbv beta. intros ty n _ (-> & Ety).
  unfold user_data. change (field 0 2 l) with (bits_val (firstn 2 l)). rewrite <- Ety.
  destruct (N.eqb_spec ty 0) as [T0|T0]; [eapply good_bind; [apply good_field; lia|]; cbv beta; intros v m _ (-> & _); apply good_ret; reflexivity|].
  destruct (N.eqb_spec ty 1) as [T1|T1]; [eapply good_bind; [apply good_field; lia|]; cbv beta; intros v m _ (-> & _); apply good_ret; reflexivity|].
  destruct (N.eqb_spec ty 2) as [T2|T2]; [eapply good_bind; [apply good_field; lia|]; cbv beta; intros v m _ (-> & _); apply good_ret; reflexivity|].
  destruct (N.eqb_spec ty 3) as [T3|T3]; [|exfalso; pose proof (field_bound 0 2 l) as B; change (field 0 2 l) with (bits_val (firstn 2 l)) in B; rewrite <- Ety in B; change (2 ^ N.of_nat 2)%N with 4%N in B; lia].
  eapply good_bind; [apply good_field; lia|]. cbv beta zeta. intros len m _ (-> & El). change (0 + 2) with 2. change (field 2 11 l) with (bits_val (firstn 11 (skipn 2 l))). rewrite <- El.
  apply (good_bind _ (fun (x : option (list N)) m => x <> None -> m = N.to_nat len)).
  - intros b W E. unfold read_bits_into_slice. replace (N.to_nat ((len + 7) / 8)) with ((N.to_nat len + 7) / 8) by (rewrite N2Nat.inj_div, N2Nat.inj_add; reflexivity).
    rewrite Nat.leb_refl. cbn [assert bind]. apply slice_loop_good; [|exact W|exact E].
    pose proof (Nat.div_mod (N.to_nat len + 7) 8 ltac:(lia)). pose proof (Nat.mod_upper_bound (N.to_nat len + 7) 8 ltac:(lia)). lia.
  - cbv beta. intros [data|] m _ Em; [|intros b W E; exact I]. apply good_ret. specialize (Em ltac:(discriminate)). lia.
Qed.
Lemma from_sds {A} l a (k : sds_user_data -> reader A) : (forall v, from l (a + user_data a l) (k v)) -> from l a (rbind sds_from_bitbuf k).
Proof.
  intros H. eapply good_bind; [apply sds_good|]. cbv beta. intros x n _ ->. rewrite skipn_skipn'.
  replace (user_data 0 (skipn a l)) with (user_data a l) by (unfold user_data, field; rewrite !skipn_skipn', !Nat.add_0_r; reflexivity). apply H.
Qed.

Ltac ids := first [reflexivity | lia].
Ltac tail := repeat (apply tail_3; [reflexivity|auto|intros ?]); apply tail_end.
Ltac head := repeat first
  [ apply from_bit; intros ? ?
  | apply from_field; [lia|]; intros ? ?
  | apply from_flag; intros ? ?
  | apply from_guard; intros ?
  | apply from_try; intros ? ].

Section Cmce.
Variable l : list bool.
Hypothesis calm : ~ hostile_cmce l.

Lemma calm_tail h b : cmce_head l = Some h -> b = bit h l -> b = true -> clean overlong (skipn (h + 1) l).
Proof. intros H E B S. apply calm. right. exists h. split; [exact H|]. split; [congruence|exact S]. Qed.

Lemma disconnect_safe : from l 0 u_disconnect_from_bitbuf.
Proof.
  unfold u_disconnect_from_bitbuf. apply from_field; [lia|]. intros ty Ety. apply from_guard. intros G. apply N.eqb_eq in G. head.
  match goal with H : ?x = bit ?n l |- _ => apply (from_tail overlong _ _ x); [tail|] end. intros O. match goal with H : ?x = bit ?n l |- _ => apply (calm_tail n x); [|exact H|exact O] end.
  unfold cmce_head. rewrite <- Ety, G. reflexivity.
Qed.
Lemma release_safe : from l 0 u_release_from_bitbuf.
Proof.
  unfold u_release_from_bitbuf. apply from_field; [lia|]. intros ty Ety. apply from_guard. intros G. apply N.eqb_eq in G. head.
  match goal with H : ?x = bit ?n l |- _ => apply (from_tail overlong _ _ x); [tail|] end. intros O. match goal with H : ?x = bit ?n l |- _ => apply (calm_tail n x); [|exact H|exact O] end.
  unfold cmce_head. rewrite <- Ety, G. reflexivity.
Qed.
Lemma tx_ceased_safe : from l 0 u_tx_ceased_from_bitbuf.
Proof.
  unfold u_tx_ceased_from_bitbuf. apply from_field; [lia|]. intros ty Ety. apply from_guard. intros G. apply N.eqb_eq in G. head.
  match goal with H : ?x = bit ?n l |- _ => apply (from_tail overlong _ _ x); [tail|] end. intros O. match goal with H : ?x = bit ?n l |- _ => apply (calm_tail n x); [|exact H|exact O] end.
  unfold cmce_head. rewrite <- Ety, G. reflexivity.
Qed.
Lemma tx_demand_safe : from l 0 u_tx_demand_from_bitbuf.
Proof.
  unfold u_tx_demand_from_bitbuf. apply from_field; [lia|]. intros ty Ety. apply from_guard. intros G. apply N.eqb_eq in G.
  apply from_field; [lia|]. intros id _. apply from_field; [lia|]. intros pr _. apply from_flag. intros e _. apply from_flag. intros r _. head.
  match goal with H : ?x = bit ?n l |- _ => apply (from_tail overlong _ _ x); [tail|] end. intros O. match goal with H : ?x = bit ?n l |- _ => apply (calm_tail n x); [|exact H|exact O] end.
  unfold cmce_head. rewrite <- Ety, G. reflexivity.
Qed.
Lemma setup_safe : from l 0 u_setup_from_bitbuf.
Proof.
  unfold u_setup_from_bitbuf. apply from_field; [lia|]. intros ty Ety. apply from_guard. intros G. apply N.eqb_eq in G.
  apply from_field; [lia|]. intros ar _. apply from_flag. intros h _. apply from_flag. intros d _. apply from_bsi. intros bs.
  apply from_flag. intros rq _. apply from_field; [lia|]. intros pr _. apply from_field; [lia|]. intros cl _. apply from_field; [lia|]. intros pt Ept.
  cbn [Nat.add] in *. apply (from_party l 28 pt); [exact Ept|]. intros x y z. apply from_bit. intros o Eo.
  apply (from_tail overlong _ _ o); [tail|]. intros O. apply (calm_tail _ o); [|exact Eo|exact O].
  unfold cmce_head. rewrite <- Ety, G, <- Ept. reflexivity.
Qed.

Lemma pcs_ok v : (v < 65536)%N -> v <> 31743%N -> pcs_from_u16 v <> Panic.
Proof.
  intros B H. unfold pcs_from_u16. destruct (v =? 0)%N; [discriminate|]. destruct (N.leb_spec v 31742); [discriminate|]. destruct (N.leb_spec v 32767); [|discriminate].
  unfold ssr_from_u16. rewrite N.shiftr_div_pow2. change (2 ^ 10)%N with 1024%N. replace (v / 1024)%N with 31%N by lia. discriminate.
Qed.
Lemma from_lift {A B} a (x : res A) (k : A -> reader B) : x <> Panic -> (forall v, from l a (k v)) -> from l a (rbind (rlift x) k).
Proof. intros N0 H b W E. unfold rbind, rlift. destruct x as [v|e|]; cbn [bind fst snd]; [exact (H v b W E)|exact I|congruence]. Qed.
Lemma status_safe : from l 0 u_status_from_bitbuf.
Proof.
  unfold u_status_from_bitbuf. apply from_field; [lia|]. intros ty Ety. apply from_guard. intros G. apply N.eqb_eq in G.
  apply from_field; [lia|]. intros ar _. apply from_field; [lia|]. intros pt Ept.
  cbn [Nat.add] in *. apply (from_party l 11 pt); [exact Ept|]. intros x y z. apply from_field; [lia|]. intros v Ev. apply from_lift.
  { apply pcs_ok; [rewrite Ev; apply (field_bound _ 16)|]. intros D. apply calm. left. split; [rewrite <- Ety; exact G|]. rewrite <- Ept, <- Ev. exact D. }
  intros st. apply from_bit. intros o Eo.
  apply (from_tail overlong _ _ o); [tail|]. intros O. apply (calm_tail _ o); [|exact Eo|exact O].
  unfold cmce_head. rewrite <- Ety, G, <- Ept. reflexivity.
Qed.
Lemma sds_data_safe : from l 0 u_sds_data_from_bitbuf.
Proof.
  unfold u_sds_data_from_bitbuf. apply from_field; [lia|]. intros ty Ety. apply from_guard. intros G. apply N.eqb_eq in G.
  apply from_field; [lia|]. intros ar _. apply from_field; [lia|]. intros pt Ept.
  cbn [Nat.add] in *. apply (from_party l 11 pt); [exact Ept|]. intros x y z. apply from_sds. intros d. apply from_bit. intros o Eo.
  apply (from_tail overlong _ _ o); [tail|]. intros O. apply (calm_tail _ o); [|exact Eo|exact O].
  unfold cmce_head. rewrite <- Ety, G, <- Ept. reflexivity.
Qed.
End Cmce.

(** ** MM *)
Lemma giu_safe : rsafe giu_from_bitbuf.
Proof.
  unfold giu_from_bitbuf. repeat (first [apply rsafe_ret | apply rsafe_bind; [first [apply rsafe_field; lia | apply rsafe_ropt, rsafe_field; lia]|intros ?]]).
Qed.
Lemma gild_good len rest : ~ stunted_inside 3 len rest -> good rest any gild_from_bitbuf.
Proof.
  intros H. unfold gild_from_bitbuf. change rest with (skipn 0 rest). apply from_field; [lia|]. intros r Er. apply from_guard. intros _.
  apply from_field; [lia|]. intros m Em. apply from_bit. intros o Eo. cbn [Nat.add] in *. unfold from.
  eapply good_bind with (P := any); [|cbv beta; intros x n _ _; apply good_rsafe; apply rsafe_bind; [apply rsafe_trailing|]; intros; apply rsafe_ret].
  destruct o; [|apply good_ret; exact I].
  destruct rest as [|u [|v [|w c]]]; [discriminate Eo..|]. cbn [bit nth] in Eo. subst w. cbn [skipn].
  eapply good_weaken; [|apply (type4_struct_clean (fun id n r => id = 8%N /\ stunted 8 n r /\ c = true :: bits_of 4 8 ++ bits_of 11 n ++ r))]; [exact (fun _ _ _ _ => I)|exact giu_safe| |].
  - intros n r0 Ec S. auto.
  - intros (id & n & r0 & _ & _ & S & Ec). apply H. split; [reflexivity|]. exists u, v, n, r0. split; [now rewrite Ec|exact S].
Qed.

Section Mm.
Variable l : list bool.
Hypothesis calm : ~ hostile_mm l.

Lemma itsi_detach_safe : from l 0 u_itsi_detach_from_bitbuf.
Proof.
  unfold u_itsi_detach_from_bitbuf. apply from_field; [lia|]. intros ty Ety. apply from_guard. intros G. apply N.eqb_eq in G.
  apply from_bit. intros o Eo. cbn [Nat.add] in *. destruct o.
  - eapply good_bind; [apply type2_good; lia|]. cbv beta. intros x n _ En. rewrite En.
    assert (tail_ok overlong true (proprietary <~ parse_type3_generic true MmUl_Proprietary;; read_trailing true;~ rret (mk_u_itsi_detach x proprietary))) as T by tail.
    apply T. intros _ S. apply calm. left. split; [rewrite <- Ety; exact G|]. split; [now rewrite <- Eo|exact S].
  - apply good_rsafe. apply rsafe_bind; [apply rsafe_ret|]. intros x. apply rsafe_bind; [apply rsafe_ret|]. intros y.
    apply rsafe_bind; [apply rsafe_trailing|]. intros; apply rsafe_ret.
Qed.

Lemma attach_safe : from l 0 u_attach_detach_from_bitbuf.
Proof.
  unfold u_attach_detach_from_bitbuf. apply from_field; [lia|]. intros ty Ety. apply from_guard. intros G. apply N.eqb_eq in G.
  apply from_flag. intros rp _. apply from_flag. intros md _. apply from_bit. intros o Eo. cbn [Nat.add] in *.
  apply (from_tail (fun id len rest => overlong id len rest \/ stunted id len rest) _ _ o).
  - apply tail_3; [reflexivity|auto|]. intros x. apply tail_4s; [exact giu_safe|auto|]. intros y. apply tail_3; [reflexivity|auto|]. intros z. apply tail_end.
  - intros -> S. apply calm. right. right. split; [rewrite <- Ety; exact G|]. split; [now rewrite <- Eo|exact S].
Qed.

Lemma field_too_wide n b : wf b -> 64 < n -> read_field n b = Err EBufferEnded.
Proof.
  intros W H. unfold read_field, read_bits_opt, peek_bits, peek_bits_posoffset, sub_checked. destruct W as (W1 & W2 & _).
  destruct (Nat.leb_spec (bstart b) (bpos b)); [|lia]. cbn [bind]. unfold peek_bits_startoffset.
  destruct (Nat.ltb_spec 64 n); [|lia]. reflexivity.
Qed.
Lemma status_mm_safe : from l 0 u_mm_status_from_bitbuf.
Proof.
  unfold u_mm_status_from_bitbuf. apply from_field; [lia|]. intros ty _. apply from_guard. intros _. apply from_field; [lia|]. intros v _.
  apply from_guard. intros _. cbv zeta. intros b W E. unfold rbind at 1. unfold rlen_remaining, get_len_remaining, sub_checked.
  destruct (Nat.leb_spec (bpos b) (bend b)); [|destruct W; lia]. cbn [bind fst snd]. set (n := bend b - bpos b). destruct (Nat.le_gt_cases n 64) as [L|L].
  - apply (from_safe (skipn (4 + 6) l) 0 _ (fun s => rret (mk_u_mm_status v s (if 0 <? n then Some n else None)))); [apply rsafe_ropt, rsafe_field; exact L|intros; apply rsafe_ret|exact W|exact E].
  - destruct (Nat.ltb_spec 0 n); [|lia]. cbn [ropt]. unfold rbind, rfield. rewrite field_too_wide by assumption. exact I.
Qed.

Lemma lu_demand_safe : from l 0 u_lu_demand_from_bitbuf.
Proof.
  unfold u_lu_demand_from_bitbuf. apply from_field; [lia|]. intros ty Ety. apply from_guard. intros G. apply N.eqb_eq in G.
  apply from_field; [lia|]. intros lt _. apply from_flag. intros ra _. apply from_flag. intros cc Ecc. apply from_optf; [lia|]. intros cp. apply from_bit. intros o Eo. cbn [Nat.add] in *.
  destruct o.
  - do 5 (eapply good_bind; [apply type2_good; lia|]; cbv beta; intros ? ? _ ?En; rewrite En; clear En).
    apply (tail_3s (fun id len rest => overlong id len rest \/ stunted_inside id len rest) true MmUl_GroupIdentityLocationDemand gild_from_bitbuf).
    + reflexivity.
    + intros len rest H. apply (gild_good len). tauto.
    + intros ?. repeat (apply tail_3; [reflexivity|auto|]; intros ?). apply tail_end.
    + intros _ S. apply calm. right. left. split; [rewrite <- Ety; exact G|]. cbv zeta. rewrite <- Ecc. destruct cc; cbn [Nat.add] in *; (split; [now rewrite <- Eo|exact S]).
  - apply good_rsafe. repeat (apply rsafe_bind; [first [apply rsafe_ret | apply rsafe_trailing]|intros ?; cbv zeta]). apply rsafe_ret.
Qed.
End Mm.
