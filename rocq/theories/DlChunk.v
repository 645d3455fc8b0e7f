(** The downlink scheduler: what one call of the fragmenter puts into a slot, with headers. *)
From Coq Require Import Arith.
From Verif Require Import Base BitsLib BitBuffer BitBufferProofs BitBufferOps Codec CodecProofs TypedFields MacFields MacPdus Layout LayoutProofs
  MacSpec MacPdusProofs FillBits BsFrag FragSpec FillProofs FragProofs TxReceipt TdmaTime DlSched DlSchedSpec.
Open Scope nat_scope.

Definition fg_ok (f : fragger) : Prop :=
  fg_done f = false /\ wf (fg_sdu f) /\ sendable (fg_res f) /\ pending (fg_rep f) /\
  (fg_hdr f = false -> bpos (fg_sdu f) = bstart (fg_sdu f) /\ not_cut (hdr_bits f) (length (remaining (fg_sdu f)))).
Definition blk_ok (b : bitbuf) : Prop :=
  block_ok b /\ (length (remaining b) mod 8 = 4 \/ length (remaining b) = 0) /\ length (remaining b) <= 268.

Lemma sendable_valid p l f : sendable p -> (0 < l)%N -> (l < 64)%N -> mr_valid (mr_set_len p l f) = true.
Proof.
  intros (V & N0) L1 L2.
  change (mr_set_len p l f) with (mr_set_len (mk_mres false (mr_pog p) (mr_encmode p) (mr_raf p) 1 (mr_addr p) (mr_el p) (mr_um p) (mr_pc p) (mr_sg p) (mr_ca p)) l f).
  apply set_len_valid; auto. intros E. change (mr_is_null p = true) in E. congruence.
Qed.
Lemma sendable_len p : sendable p -> mr_compute_header_len p = Ok (width (mr_layout p)).
Proof.
  intros S. pose proof (sendable_valid p 1 false S ltac:(lia) ltac:(lia)) as V. pose proof (mr_header_len _ V) as E.
  rewrite set_len_width in E. exact E.
Qed.
Lemma sendable_set p l f : sendable p -> sendable (mr_set_len p l f).
Proof. intros S. exact S. Qed.
Lemma header_set p l f : header (mr_set_len p l f) = header p.
Proof. reflexivity. Qed.
Lemma on_air_idem a : on_air (on_air a) = on_air a.
Proof. destruct a as [s e []]; reflexivity. Qed.
Lemma header_on_air p : header (mr_on_air p) = header p.
Proof. unfold header, mr_on_air. cbn [mr_pog mr_encmode mr_raf mr_addr mr_el mr_um mr_pc mr_sg mr_ca]. destruct (mr_addr p); cbn [option_map]; [rewrite on_air_idem|]; reflexivity. Qed.
Lemma null_on_air p : mr_is_null (mr_on_air p) = mr_is_null p.
Proof. unfold mr_is_null, mr_on_air. cbn [mr_addr mr_el mr_um]. destruct (mr_addr p); reflexivity. Qed.

(** What the receiver makes of the pieces *)
Lemma items_eq st n l : items st (S n) l =
  if length l <? 16 then Some []
  else match l with
  | false :: false :: _ =>
      match parse mr_read l with
      | Some (p, h) =>
          if mr_is_null p then check st (mr_len p =? 2)%N (Some [])
          else if (mr_len p =? 63)%N then check st (padded (mr_fill p) h (length l) l) (option_map (fun d => [IStart (header p) d]) (body (mr_fill p) h (length l) l))
          else check st (length_whole (mr_len p) && padded (mr_fill p) h (N.to_nat (8 * mr_len p)) l)
                 match body (mr_fill p) h (N.to_nat (8 * mr_len p)) l with
                 | Some d => option_map (cons (IWhole (header p) d)) (items st n (skipn (N.to_nat (8 * mr_len p)) l))
                 | None => None
                 end
      | None => None
      end
  | false :: true :: false :: _ =>
      match parse mfrag_read l with
      | Some (fill, h) => check st (padded fill h (length l) l) (option_map (fun d => [IMore d]) (body fill h (length l) l))
      | None => None
      end
  | false :: true :: true :: _ =>
      match parse mend_read l with
      | Some (p, h) =>
          check st ((1 <=? me_len p)%N && padded (me_fill p) h (N.to_nat (8 * me_len p)) l)
            match body (me_fill p) h (N.to_nat (8 * me_len p)) l with
            | Some d => option_map (cons (IEnd d)) (items st n (skipn (N.to_nat (8 * me_len p)) l))
            | None => None
            end
      | None => None
      end
  | _ => None
  end.
Proof. reflexivity. Qed.
Lemma check_fine {A} st c (x : option A) : c = true -> check st c x = x.
Proof. intros ->. unfold check. now rewrite orb_true_r. Qed.
Lemma items_short st n l : length l < 16 -> items st n l = Some [].
Proof. intros H. destruct n; [reflexivity|]. rewrite items_eq. destruct (Nat.ltb_spec (length l) 16); [reflexivity|lia]. Qed.
Lemma mr_enc_head p : exists t, enc (mr_layout p) = false :: false :: t.
Proof. unfold mr_layout. eexists. reflexivity. Qed.
Lemma items_resource st n p rest : mr_valid p = true -> mr_is_null p = false ->
  items st (S n) (enc (mr_layout p) ++ rest) =
  let l := enc (mr_layout p) ++ rest in let h := length (enc (mr_layout p)) in
  if (mr_len p =? 63)%N then check st (padded (mr_fill p) h (length l) l) (option_map (fun d => [IStart (header p) d]) (body (mr_fill p) h (length l) l))
  else check st (length_whole (mr_len p) && padded (mr_fill p) h (N.to_nat (8 * mr_len p)) l)
         match body (mr_fill p) h (N.to_nat (8 * mr_len p)) l with
         | Some d => option_map (cons (IWhole (header p) d)) (items st n (skipn (N.to_nat (8 * mr_len p)) l))
         | None => None
         end.
Proof.
  intros V N0. cbv zeta. rewrite items_eq.
  assert (HL : 16 <= length (enc (mr_layout p))) by (rewrite enc_length; apply mr_width_min).
  destruct (Nat.ltb_spec (length (enc (mr_layout p) ++ rest)) 16) as [H|_]; [rewrite app_length in H; lia|].
  rewrite (parse_reads mr_read _ (mr_on_air p)) by exact (proj2 (mr_carries p V)).
  rewrite null_on_air, N0, header_on_air.
  assert (EL : mr_len (mr_on_air p) = mr_len p) by (destruct p; reflexivity).
  assert (EF : mr_fill (mr_on_air p) = mr_fill p) by (destruct p; reflexivity).
  rewrite EL, EF. destruct (mr_enc_head p) as (t & ET). rewrite ET. cbn [app]. reflexivity.
Qed.

Lemma body_none fill h s e l : e <= h -> e <= length l -> s = [] -> body fill h e l = Some s.
Proof.
  intros H1 H2 ->. unfold body. destruct (Nat.leb_spec e (length l)); [|lia]. cbv zeta. rewrite skipn_all2 by (rewrite firstn_length; lia).
  destruct fill; reflexivity.
Qed.
(** Padding that is there *)
Lemma padded_pad p s k rest e : e = length p + length s + k -> padded (0 <? k) (length p) e (p ++ s ++ pad k ++ rest) = true.
Proof.
  intros ->. unfold padded. destruct k as [|k]; [reflexivity|]. change (0 <? S k) with true. cbn [negb orb]. apply orb_true_iff. right.
  apply existsb_exists. exists true. split; [|reflexivity].
  replace (length p + length s + S k) with (length p + (length s + S k)) by lia. rewrite firstn_app_2, skipn_app, skipn_all, Nat.sub_diag. cbn [app skipn].
  rewrite firstn_app_2. apply in_or_app. right. cbn [pad]. cbn [app firstn]. left. reflexivity.
Qed.

Lemma items_whole st n p s k tail :
  mr_valid p = true -> mr_is_null p = false -> (1 <= mr_len p <= 57)%N -> mr_fill p = (0 <? k) ->
  N.to_nat (8 * mr_len p) = length (enc (mr_layout p)) + length s + k ->
  items st (S n) ((enc (mr_layout p) ++ s ++ pad k) ++ tail) = option_map (app [IWhole (header p) s]) (items st n tail).
Proof.
  intros V N0 L F E. rewrite <- !app_assoc. rewrite items_resource by assumption. cbv zeta.
  destruct (N.eqb_spec (mr_len p) 63); [lia|].
  rewrite check_fine.
  2:{ rewrite F, (padded_pad _ s k tail) by exact E. unfold length_whole. rewrite !(proj2 (N.leb_le _ _)) by lia. reflexivity. }
  rewrite (body_whole _ (enc (mr_layout p)) s _ tail k); auto.
  rewrite E. replace (enc (mr_layout p) ++ s ++ pad k ++ tail) with ((enc (mr_layout p) ++ s ++ pad k) ++ tail) by now rewrite <- !app_assoc.
  rewrite skipn_app. rewrite skipn_all2 by (rewrite !app_length, pad_length; lia).
  rewrite !app_length, pad_length. replace (_ - _) with 0 by lia. reflexivity.
Qed.
(** An empty message that ends in the incomplete octet at the end of the slot *)
Lemma items_whole_cut st n p k : mr_valid p = true -> mr_is_null p = false -> (1 <= mr_len p <= 57)%N ->
  N.to_nat (8 * mr_len p) + 4 = length (enc (mr_layout p)) + k -> k < 4 ->
  items st (S n) (enc (mr_layout p) ++ pad k) = Some [IWhole (header p) []].
Proof.
  intros V N0 L E K. rewrite items_resource by assumption. cbv zeta.
  destruct (N.eqb_spec (mr_len p) 63); [lia|].
  rewrite check_fine.
  2:{ unfold length_whole, padded. rewrite !(proj2 (N.leb_le _ _)) by lia. destruct (Nat.ltb_spec (N.to_nat (8 * mr_len p)) (length (enc (mr_layout p)))); [|lia]. now rewrite orb_true_r. }
  rewrite (body_none _ _ []); [|lia|rewrite app_length, pad_length; lia|reflexivity].
  rewrite items_short; [reflexivity|]. rewrite skipn_length, app_length, pad_length. lia.
Qed.
Lemma items_start st n p s : mr_valid p = true -> mr_is_null p = false -> mr_len p = 63%N -> mr_fill p = false ->
  items st (S n) (enc (mr_layout p) ++ s) = Some [IStart (header p) s].
Proof.
  intros V N0 L F. rewrite items_resource by assumption. cbv zeta. rewrite L, F. change (63 =? 63)%N with true. cbv iota. rewrite check_fine by reflexivity.
  assert (B : body false (length (enc (mr_layout p))) (length (enc (mr_layout p) ++ s)) (enc (mr_layout p) ++ s) = Some s).
  { pose proof (body_whole false (enc (mr_layout p)) s (enc (mr_layout p)) [] 0 (length (enc (mr_layout p) ++ s)) eq_refl eq_refl) as B.
    cbn [pad app] in B. rewrite app_nil_r in B. apply B. rewrite app_length. lia. }
  rewrite B. reflexivity.
Qed.
Lemma items_more st n s k : 12 <= length s + k ->
  items st (S n) (enc (mfrag_layout (0 <? k)) ++ s ++ pad k) = Some [IMore s].
Proof.
  intros H. rewrite items_eq.
  assert (HL : length (enc (mfrag_layout (0 <? k))) = 4) by (destruct (0 <? k); reflexivity).
  destruct (Nat.ltb_spec (length (enc (mfrag_layout (0 <? k)) ++ s ++ pad k)) 16) as [Q|_]; [rewrite !app_length, pad_length in Q; lia|].
  rewrite (parse_reads mfrag_read _ (0 <? k)) by exact (proj2 (mfrag_carries _)).
  rewrite check_fine.
  2:{ pose proof (padded_pad (enc (mfrag_layout (0 <? k))) s k [] (length (enc (mfrag_layout (0 <? k)) ++ s ++ pad k))) as P. rewrite app_nil_r in P. apply P. rewrite !app_length, pad_length. lia. }
  pose proof (body_whole (0 <? k) (enc (mfrag_layout (0 <? k))) s (enc (mfrag_layout (0 <? k))) [] k (length (enc (mfrag_layout (0 <? k)) ++ s ++ pad k)) eq_refl eq_refl) as B.
  rewrite app_nil_r in B. rewrite B by (rewrite !app_length, pad_length; lia). destruct (0 <? k); reflexivity.
Qed.
Lemma items_end st n p s k tail :
  mend_valid p = true -> me_fill p = (0 <? k) -> N.to_nat (8 * me_len p) = length (enc (mend_layout p)) + length s + k -> 16 <= length (enc (mend_layout p)) + length s + k ->
  items st (S n) ((enc (mend_layout p) ++ s ++ pad k) ++ tail) = option_map (app [IEnd s]) (items st n tail).
Proof.
  intros V F E H. rewrite items_eq.
  destruct (Nat.ltb_spec (length ((enc (mend_layout p) ++ s ++ pad k) ++ tail)) 16) as [Q|_]; [rewrite !app_length, pad_length in Q; lia|].
  assert (SK : skipn (N.to_nat (8 * me_len p)) ((enc (mend_layout p) ++ s ++ pad k) ++ tail) = tail).
  { rewrite E, skipn_app. rewrite skipn_all2 by (rewrite !app_length, pad_length; lia). rewrite !app_length, pad_length. replace (_ - _) with 0 by lia. reflexivity. }
  rewrite <- !app_assoc in *. rewrite (parse_reads mend_read _ p) by exact (proj2 (mend_carries p V)). rewrite SK.
  rewrite check_fine.
  2:{ rewrite F, (padded_pad _ s k tail) by exact E. rewrite (proj2 (N.leb_le _ _)) by lia. reflexivity. }
  rewrite (body_whole _ (enc (mend_layout p)) s _ tail k); auto.
Qed.

Definition en_of (f : fragger) : entry := mk_en (fg_hdr f) (fg_res f) (remaining (fg_sdu f)) (fg_rep f).
Definition marks (dn : bool) (f : fragger) : list tx_reporter := if dn then match fg_rep f with Some t => [t] | None => [] end else [].

Lemma chunk_spec f blk : fg_ok f -> blk_ok blk ->
  exists dn f' blk' w is, fg_next_chunk f blk = Ok (dn, f', blk') /\ wrote blk blk' w /\ fg_done f' = dn /\ (dn = false -> fg_ok f') /\
    hdr_bits f' = hdr_bits f /\
    served (en_of f) is (if dn then [] else [en_of f']) (marks dn f') /\
    length w <= length (remaining blk) /\ (length w mod 8 = 0 \/ length w = length (remaining blk)) /\
    ((w = [] /\ is = [] /\ dn = false /\ f' = f /\
       (fg_hdr f = false -> length (remaining blk) < Nat.max 32 (hdr_bits f)) /\ (fg_hdr f = true -> length (remaining blk) < 16)) \/
     (w <> [] /\ is <> [] /\ (forall st n tail, length (w ++ tail) = length (remaining blk) -> items st (S n) (w ++ tail) = option_map (app is) (items st n tail)) /\
       (fg_hdr f = false -> hdr_bits f <= length (remaining blk)) /\
       (dn = false -> fg_hdr f' = true /\ length w = length (remaining blk)))).
Proof.
  intros (Id & Iw & Is & Ip & Ih) ((Bw & Ba & Bc & Bal) & Bm & Bz).
  unfold fg_next_chunk. rewrite Id. cbn [negb assert bind]. rewrite pos_ok, len_rem by assumption. cbn [bind].
  assert (HA : ((bpos blk - bstart blk) mod 8 =? 0) || (length (remaining blk) =? 0) = true).
  { apply orb_true_iff. destruct Bal as [B|B]; [left|right]; now apply Nat.eqb_eq. }
  rewrite HA. cbn [assert bind]. set (cap := length (remaining blk)) in *. set (sl := length (remaining (fg_sdu f))) in *.
  assert (REP : forall (dn : bool) (rest : option tx_reporter -> res (bool * fragger * bitbuf)),
    exists rep', (rep <- match fg_rep f with Some t => if dn then t <- tx_mark_transmitted t ;; Ok (Some t) else Ok (Some t) | None => Ok None end ;; rest rep) = rest rep' /\
      (dn = false -> rep' = fg_rep f) /\
      (dn = true -> match rep' with Some t => [t] | None => [] end = sent (fg_rep f))).
  { intros dn rest. destruct (fg_rep f) as [t|] eqn:ER; [|exists None; cbn; repeat split; auto].
    destruct dn; [|exists (Some t); repeat split; auto; discriminate].
    unfold tx_mark_transmitted, tx_mark. cbn [pending] in Ip. rewrite Ip, Nat.eqb_refl. cbn [bind].
    eexists. split; [reflexivity|]. split; [discriminate|]. intros _. reflexivity. }
  destruct (fg_hdr f) eqn:EH.
  - (* continuation *)
    unfold fg_frag_or_end_chunk. rewrite EH. cbn [assert bind]. rewrite !len_rem by assumption. cbn [bind]. fold sl cap. fold cap in Bz.
    unfold mend_compute_hdr_len. cbn [negb assert bind].
    set (eb := 2 + 1 + 1 + 1 + 6 + 1 + 0 + 1 + sl). change (2 + 1 + 1 + 1 + 6 + 1 + 0 + 1) with 13 in eb. fold eb.
    replace (2 + 1 + 1 + 1 + 6 + 1 + (if false then 6 else 0) + 1 + sl) with eb by reflexivity.
    set (by_ := (eb + 7) / 8).
    assert (HBY : eb <= by_ * 8 < eb + 8) by (unfold by_; pose proof (Nat.div_mod_eq (eb + 7) 8); pose proof (Nat.mod_upper_bound (eb + 7) 8); lia).
    destruct (Nat.leb_spec (by_ * 8) cap) as [HE|HE].
    + (* MAC-END *)
      set (k := fill_required eb cap).
      assert (HK : eb + k = by_ * 8).
      { unfold k, fill_required. destruct (Nat.leb_spec cap eb) as [H1|H1]; [lia|].
        destruct (fill_bytealigned_spec eb) as (F1 & F2 & F3).
        assert (eb + fill_bytealigned eb = by_ * 8).
        { specialize (F3 (by_ * 8 - eb)). replace (eb + (by_ * 8 - eb)) with (by_ * 8) in F3 by lia. rewrite Nat.mod_mul in F3 by lia.
          specialize (F3 eq_refl). pose proof (Nat.div_mod_eq (eb + fill_bytealigned eb) 8). lia. }
        destruct (Nat.leb_spec (eb + fill_bytealigned eb) cap); lia. }
      set (pdu := mk_mend (0 <? k) 0 (to_u8 (N.of_nat by_)) None None).
      assert (HL : me_len pdu = N.of_nat by_) by (unfold pdu; cbn [me_len]; apply to_u8_small; lia).
      assert (HV : mend_valid pdu = true).
      { unfold mend_valid, mend_layout. rewrite HL. cbn [me_fill me_pog me_sg me_ca pdu optl app opt_valid fits forallb fst snd fl]. rewrite !andb_true_iff.
        change (2 ^ N.of_nat 6)%N with 64%N. repeat split; try reflexivity; try (apply N.ltb_lt; lia). destruct (0 <? k); reflexivity. }
      assert (HLen : length (enc (mend_layout pdu)) = 13) by reflexivity.
      destruct (emit (mend_write pdu) (enc (mend_layout pdu)) sl k (fg_sdu f) blk (proj1 (mend_carries pdu HV)) Iw Bw) as (b1 & b2 & b3 & E1 & E2 & E3 & _ & O); [lia|unfold eb in *; fold cap; lia|].
      rewrite E1. cbn [bind]. rewrite E2. cbn [bind]. rewrite fg_pad_eq, E3. cbn [bind fg_rep fg_res fg_hdr fg_sdu].
      destruct (REP true (fun rep => Ok (true, mk_fg (fg_res f) true true (adv (fg_sdu f) sl) rep, b3))) as (rep' & ER & _ & ER2). rewrite ER.
      assert (FN : firstn sl (remaining (fg_sdu f)) = remaining (fg_sdu f)) by (apply firstn_all2; unfold sl; lia).
      rewrite FN in O.
      assert (LW : length (enc (mend_layout pdu) ++ remaining (fg_sdu f) ++ pad k) = by_ * 8) by (rewrite !app_length, HLen, pad_length; fold sl; unfold eb in HK; lia).
      exists true, (mk_fg (fg_res f) true true (adv (fg_sdu f) sl) rep'), b3, (enc (mend_layout pdu) ++ remaining (fg_sdu f) ++ pad k), [IEnd (remaining (fg_sdu f))].
      split; [reflexivity|]. split; [exact O|]. split; [reflexivity|]. split; [discriminate|]. split; [reflexivity|].
      split. { cbn [marks fg_rep]. rewrite (ER2 eq_refl). unfold en_of. rewrite EH. apply served_end. }
      rewrite LW. split; [lia|]. split; [left; now apply Nat.mod_mul|]. right.
      split; [intros HH; apply (f_equal (@length bool)) in HH; rewrite LW in HH; cbn [length] in HH; unfold eb in *; lia|]. split; [discriminate|].
      split; [|split; discriminate]. intros st n tail _. apply items_end; [assumption|reflexivity| |]; rewrite ?HL, HLen; fold sl; unfold eb in HK; lia.
    + destruct (Nat.ltb_spec cap MIN_FRAG) as [HM|HM].
      * cbn [bind fg_rep fg_res fg_hdr fg_sdu].
        destruct (REP false (fun rep => Ok (false, mk_fg (fg_res f) (fg_hdr f) false (fg_sdu f) rep, blk))) as (rep' & ER & ER1 & _). rewrite ER.
        rewrite (ER1 eq_refl). assert (EF : mk_fg (fg_res f) (fg_hdr f) false (fg_sdu f) (fg_rep f) = f) by (destruct f; cbn in *; congruence). rewrite EF.
        exists false, f, blk, [], [].
        split; [reflexivity|]. split; [apply wrote_nil; assumption|]. split; [assumption|].
        split; [intros _; unfold fg_ok; rewrite EH; tauto|]. split; [reflexivity|]. split; [apply served_later|]. split; [cbn; lia|]. split; [left; reflexivity|].
        left. repeat (split; [reflexivity|]). split; [discriminate|]. intros _. unfold MIN_FRAG in HM. lia.
      * (* MAC-FRAG *)
        unfold MIN_FRAG in HM. set (n := Nat.min (cap - 4) sl). set (k := cap - 4 - n).
        assert (HLen : length (enc (mfrag_layout (0 <? k))) = 4) by (destruct (0 <? k); reflexivity).
        destruct (emit (mfrag_write (0 <? k)) (enc (mfrag_layout (0 <? k))) n k (fg_sdu f) blk (proj1 (mfrag_carries _)) Iw Bw) as (b1 & b2 & b3 & E1 & E2 & E3 & _ & O); [unfold n, sl; lia|rewrite HLen; fold cap; unfold k, n; lia|].
        rewrite E1. cbn [bind]. rewrite E2. cbn [bind]. rewrite fg_pad_eq, E3. cbn [bind fg_rep fg_res fg_hdr fg_sdu].
        destruct (REP false (fun rep => Ok (false, mk_fg (fg_res f) true false (adv (fg_sdu f) n) rep, b3))) as (rep' & ER & ER1 & _). rewrite ER.
        rewrite (ER1 eq_refl).
        assert (LF : length (firstn n (remaining (fg_sdu f))) = n) by (rewrite firstn_length; fold sl; unfold n; lia).
        assert (LW : length (enc (mfrag_layout (0 <? k)) ++ firstn n (remaining (fg_sdu f)) ++ pad k) = cap).
        { rewrite !app_length, HLen, pad_length, LF. unfold k, n. lia. }
        exists false, (mk_fg (fg_res f) true false (adv (fg_sdu f) n) (fg_rep f)), b3, (enc (mfrag_layout (0 <? k)) ++ firstn n (remaining (fg_sdu f)) ++ pad k), [IMore (firstn n (remaining (fg_sdu f)))].
        split; [reflexivity|]. split; [exact O|]. split; [reflexivity|].
        split. { intros _. unfold fg_ok; cbn [fg_done fg_sdu fg_res fg_rep fg_hdr]. split; [reflexivity|]. split; [apply wf_adv; [assumption|unfold n, sl; lia]|]. split; [assumption|]. split; [assumption|discriminate]. }
        split; [reflexivity|]. split.
        { unfold en_of. cbn [fg_hdr fg_res fg_sdu fg_rep marks]. rewrite EH. rewrite (adv_firstn (fg_sdu f) n) at 1 by (assumption || (unfold n, sl; lia)). apply served_more. intros HN. apply (f_equal (@length bool)) in HN. rewrite LF in HN. cbn [length] in HN. unfold n, eb in *. lia. }
        rewrite LW. split; [lia|]. split; [right; reflexivity|]. right.
        split; [intros HH; apply (f_equal (@length bool)) in HH; rewrite LW in HH; cbn [length] in HH; lia|]. split; [discriminate|].
        split; [|split; [discriminate|auto]].
        intros st n0 tail HT. rewrite app_length, LW in HT. destruct tail; [|cbn [length] in HT; lia]. rewrite app_nil_r, (items_short st n0 []) by (cbn; lia). cbn [option_map app].
        apply items_more. rewrite LF. unfold k, n. lia.
  - (* first chunk *)
    destruct (Ih eq_refl) as (Ip0 & NC). clear Ih.
    unfold fg_resource_chunk. rewrite pos_ok by assumption. rewrite Ip0, Nat.sub_diag. cbn [bind Nat.eqb assert]. rewrite EH. cbn [negb assert bind].
    rewrite !len_rem by assumption. cbn [bind]. fold sl cap. fold cap in Bz.
    pose proof (proj2 Is) as EN. rewrite EN. cbn [andb negb assert bind]. rewrite (sendable_len _ Is). cbn [bind].
    change (width (mr_layout (fg_res f))) with (hdr_bits f).
    assert (HHM : 16 <= hdr_bits f) by apply mr_width_min.
    set (h := hdr_bits f) in *. fold sl in NC.
    set (k := fill_required (h + sl) cap). destruct (fill_required_spec (h + sl) cap) as (FR1 & FR2). fold k in FR1, FR2.
    destruct (Nat.leb_spec (h + sl + k) cap) as [HF|HF].
    + (* whole PDU *)
      assert (HAs : ((h + sl + k) mod 8 =? 0) || (h + sl + k =? cap) = true).
      { apply orb_true_iff. destruct (FR2 ltac:(lia)) as (_ & [Q|Q] & _); [left|right]; now apply Nat.eqb_eq. }
      rewrite HAs. cbn [assert bind].
      set (t8 := (h + sl + k) / 8). pose proof (Nat.div_mod_eq (h + sl + k) 8) as DM. fold t8 in DM.
      set (r := mr_set_len (fg_res f) (to_u8 (N.of_nat t8)) (0 <? k)).
      assert (HL : mr_len r = N.of_nat t8) by (unfold r; cbn [mr_len mr_set_len]; apply to_u8_small; lia).
      assert (HT1 : 1 <= t8) by (pose proof (Nat.mod_upper_bound (h + sl + k) 8 ltac:(lia)); lia).
      assert (HV : mr_valid r = true) by (unfold r; rewrite to_u8_small by lia; apply sendable_valid; [assumption|lia|lia]).
      assert (HLen : length (enc (mr_layout r)) = h) by (rewrite enc_length; unfold r; apply set_len_width).
      destruct (emit (mr_write r) (enc (mr_layout r)) sl k (fg_sdu f) blk (proj1 (mr_carries r HV)) Iw Bw) as (b1 & b2 & b3 & E1 & E2 & E3 & _ & O); [lia|fold cap; lia|].
      rewrite E1. cbn [bind]. rewrite E2. cbn [bind]. rewrite E3. cbn [bind fg_rep fg_res fg_hdr fg_sdu].
      destruct (REP true (fun rep => Ok (true, mk_fg r true true (adv (fg_sdu f) sl) rep, b3))) as (rep' & ER & _ & ER2). rewrite ER.
      assert (FN : firstn sl (remaining (fg_sdu f)) = remaining (fg_sdu f)) by (apply firstn_all2; unfold sl; lia).
      rewrite FN in O.
      assert (LW : length (enc (mr_layout r) ++ remaining (fg_sdu f) ++ pad k) = h + sl + k) by (rewrite !app_length, HLen, pad_length; fold sl; lia).
      exists true, (mk_fg r true true (adv (fg_sdu f) sl) rep'), b3, (enc (mr_layout r) ++ remaining (fg_sdu f) ++ pad k), [IWhole (header (fg_res f)) (remaining (fg_sdu f))].
      split; [reflexivity|]. split; [exact O|]. split; [reflexivity|]. split; [discriminate|]. split; [unfold hdr_bits; cbn [fg_res]; unfold r; apply set_len_width|].
      split. { cbn [marks fg_rep]. rewrite (ER2 eq_refl). unfold en_of. rewrite EH. apply served_whole. }
      rewrite LW. split; [lia|]. split; [destruct (FR2 ltac:(lia)) as (_ & [Q|Q] & _); auto|]. right.
      split; [intros HH; apply (f_equal (@length bool)) in HH; rewrite LW in HH; cbn [length] in HH; lia|]. split; [discriminate|].
      split; [|split; [intros _; lia|discriminate]].
      intros st n tail HTT. rewrite app_length, LW in HTT.
      assert (CASES : (h + sl + k) mod 8 = 0 \/ ((h + sl + k = cap) /\ sl = 0 /\ k < 4 /\ (h + sl + k) mod 8 = 4)).
      { destruct (FR2 ltac:(lia)) as (_ & [Q|Q] & Q3); [auto|].
        destruct Bm as [Bm|Bm]; [|lia]. right. rewrite Q.
        assert (K4 : k < 4 /\ (sl = 0 \/ False)); [|tauto].
        destruct (Nat.leb_spec cap (h + sl)) as [C|C].
        - specialize (FR1 C). split; [lia|]. assert (h + sl = cap) by lia. destruct NC as [NC|NC]; [auto|]. rewrite H, Bm in NC. lia.
        - clear FR1. destruct (fill_bytealigned_spec (h + sl)) as (A1 & A2 & A3).
          pose proof (Nat.div_mod_eq cap 8) as DC. rewrite Bm in DC.
          assert (KC : k < 4).
          { destruct (Nat.lt_ge_cases k 4) as [|KG]; [assumption|]. exfalso. specialize (A3 (k - 4)).
            replace (h + sl + (k - 4)) with (cap / 8 * 8) in A3 by lia. rewrite Nat.mod_mul in A3 by lia. specialize (A3 eq_refl).
            unfold k, fill_required in Q, KG. destruct (Nat.leb_spec cap (h + sl)); [lia|].
            destruct (Nat.leb_spec (h + sl + fill_bytealigned (h + sl)) cap); [|lia].
            unfold k, fill_required in A3. destruct (Nat.leb_spec cap (h + sl)); [lia|]. destruct (Nat.leb_spec (h + sl + fill_bytealigned (h + sl)) cap); lia. }
          split; [assumption|]. destruct NC as [NC|NC]; [auto|]. exfalso.
          assert (M : (h + sl) mod 8 = 4 - k).
          { replace (h + sl) with (4 - k + cap / 8 * 8) by lia. rewrite Nat.mod_add by lia. apply Nat.mod_small. lia. }
          assert (K1 : 1 <= k) by lia. rewrite M in NC. lia. }
      destruct CASES as [C|(C1 & C2 & C3 & C4)].
      * change (header (fg_res f)) with (header r). apply items_whole; [assumption|assumption|rewrite HL; lia|reflexivity|]. rewrite HL, HLen. fold sl. lia.
      * destruct tail; [|cbn [length] in HTT; lia]. rewrite app_nil_r, (items_short st n []) by (cbn; lia). cbn [option_map app].
        assert (EZ : remaining (fg_sdu f) = []) by (apply length_zero_iff_nil; exact C2). rewrite EZ. cbn [app].
        change (header (fg_res f)) with (header r). apply items_whole_cut; [assumption|assumption|rewrite HL; lia| |assumption]. rewrite HL, HLen. lia.
    + destruct (Nat.ltb_spec cap MIN_RES_FRAG_START) as [HM|HM]; [|destruct (Nat.ltb_spec cap h) as [HM2|HM2]]; cbn [orb].
      1,2: cbn [bind fg_rep fg_res fg_hdr fg_sdu];
        destruct (REP false (fun rep => Ok (false, mk_fg (fg_res f) (fg_hdr f) false (fg_sdu f) rep, blk))) as (rep' & ER & ER1 & _); rewrite ER;
        rewrite (ER1 eq_refl); assert (EF : mk_fg (fg_res f) (fg_hdr f) false (fg_sdu f) (fg_rep f) = f) by (destruct f; cbn in *; congruence); rewrite EF;
        exists false, f, blk, [], [];
        (split; [reflexivity|]); (split; [apply wrote_nil; assumption|]); (split; [assumption|]);
        (split; [intros _; unfold fg_ok; rewrite EH; tauto|]); (split; [reflexivity|]); (split; [apply served_later|]); (split; [cbn; lia|]); (split; [left; reflexivity|]);
        left; repeat (split; [reflexivity|]); (split; [|discriminate]); intros _; unfold MIN_RES_FRAG_START in *; lia.
      (* start of fragmentation *)
      unfold MIN_RES_FRAG_START in HM.
      assert (HK0 : k = 0). { destruct (Nat.leb_spec cap (h + sl)); [now apply FR1|]. destruct (FR2 ltac:(lia)); lia. }
      rewrite HK0 in *. cbn [Nat.eqb assert bind].
      set (r := mr_set_len (fg_res f) 63 false).
      assert (HV : mr_valid r = true) by (apply sendable_valid; [assumption|lia|lia]).
      assert (HLen : length (enc (mr_layout r)) = h) by (rewrite enc_length; unfold r; apply set_len_width).
      destruct (emit (mr_write r) (enc (mr_layout r)) (cap - h) 0 (fg_sdu f) blk (proj1 (mr_carries r HV)) Iw Bw) as (b1 & b2 & b3 & E1 & E2 & E3 & O2 & _); [fold sl; lia|fold cap; lia|].
      assert (LF : length (firstn (cap - h) (remaining (fg_sdu f))) = cap - h) by (rewrite firstn_length; fold sl; lia).
      assert (EB : fill_write None b2 = Ok b2).
      { pose proof (wrote_rem_len _ _ _ Bw O2) as RL2. rewrite app_length, HLen, LF in RL2. fold cap in RL2. specialize (RL2 ltac:(lia)).
        destruct O2 as (W2 & _). unfold fill_write. rewrite len_rem by assumption. cbn [bind]. rewrite RL2. replace (cap - (h + (cap - h))) with 0 by lia. reflexivity. }
      rewrite E1. cbn [bind]. rewrite E2. cbn [bind]. rewrite EB. cbn [bind fg_rep fg_res fg_hdr fg_sdu].
      destruct (REP false (fun rep => Ok (false, mk_fg r true false (adv (fg_sdu f) (cap - h)) rep, b2))) as (rep' & ER & ER1 & _). rewrite ER.
      rewrite (ER1 eq_refl).
      assert (LW : length (enc (mr_layout r) ++ firstn (cap - h) (remaining (fg_sdu f))) = cap) by (rewrite app_length, HLen, LF; lia).
      exists false, (mk_fg r true false (adv (fg_sdu f) (cap - h)) (fg_rep f)), b2, (enc (mr_layout r) ++ firstn (cap - h) (remaining (fg_sdu f))), [IStart (header (fg_res f)) (firstn (cap - h) (remaining (fg_sdu f)))].
      split; [reflexivity|]. split; [exact O2|]. split; [reflexivity|].
      split. { intros _. unfold fg_ok; cbn [fg_done fg_sdu fg_res fg_rep fg_hdr]. split; [reflexivity|]. split; [apply wf_adv; [assumption|fold sl; lia]|]. split; [exact Is|]. split; [assumption|discriminate]. }
      split; [unfold hdr_bits; cbn [fg_res]; unfold r; apply set_len_width|]. split.
      { unfold en_of. cbn [fg_hdr fg_res fg_sdu fg_rep marks]. rewrite EH. rewrite (adv_firstn (fg_sdu f) (cap - h)) at 1 by (assumption || (fold sl; lia)). apply served_start. reflexivity. }
      rewrite LW. split; [lia|]. split; [right; reflexivity|]. right.
      split; [intros HH; apply (f_equal (@length bool)) in HH; rewrite LW in HH; cbn [length] in HH; lia|]. split; [discriminate|].
      split; [|split; [intros _; lia|auto]].
      intros st n tail HTT. rewrite app_length, LW in HTT. destruct tail; [|cbn [length] in HTT; lia]. rewrite app_nil_r, (items_short st n []) by (cbn; lia). cbn [option_map app].
      change (header (fg_res f)) with (header r). apply items_start; [assumption|exact EN|reflexivity|reflexivity].
Qed.
