(** How a received block is taken apart: proofs, part two (one PDU). *)
From Coq Require Import Arith.
From Verif Require Import Base BitsLib AMap BitBuffer BitBufferProofs BitBufferOps Codec CodecProofs TypedFields MacFields MacPdus MacBroadcastProofs FillBits FillProofs
  TdmaTime TdmaTimeProofs Defrag DefragSpec DefragProofs FragSpec FragProofs UlSched UlSchedProofs DlSched StealProofs UmacBs UlBlockSpec UlBlockProofs.
From Verif Require UmacCircuitsProofs UmacCircuits UlSchedSpec.
Open Scope nat_scope.

(** * What holds between blocks *)
Definition no_aie (e : df_event) : Prop := match e with DfStart _ _ aie _ => aie = false | _ => True end.
Definition sched_ok (s : dls) : Prop := length (ds_q s) = 4 /\ exists now l, ds_cur s = from_int now /\ inv (ds_ul s) now l.
Definition sound (u : umac) : Prop := sched_ok (um_sch u) /\ exists h, df_rel (um_defrag u) h /\ Forall no_aie h.

Lemma push_ok ts e s : length (ds_q s) = 4 -> 1 <= ts <= 4 -> exists q, push_q ts e s = Ok (put_q ts q s).
Proof.
  intros L H. unfold push_q, get_q. rewrite (UmacCircuitsProofs.ts_get_ok _ _ []) by assumption. cbn [bind]. eauto.
Qed.
Lemma put_len ts q s : length (ds_q (put_q ts q s)) = length (ds_q s).
Proof. unfold put_q, set_q, UmacCircuits.ts_set. cbn [ds_q]. apply upd_length. Qed.
Lemma ts_of_range t : vtime t -> 1 <= ts_of t <= 4.
Proof. intros (A & _). unfold ts_of. lia. Qed.
Lemma ack_ok t a s : sched_ok s -> vtime t -> exists s', dl_enqueue_random_access_ack (ts_of t) a s = Ok s' /\ sched_ok s'.
Proof.
  intros (L & now & l & C & I) V. destruct (push_ok (ts_of t) (DlAck a) s L (ts_of_range t V)) as (q & E). exists (put_q (ts_of t) q s). split; [exact E|].
  split; [rewrite put_len; exact L|]. exists now, l. split; [exact C|exact I].
Qed.
Lemma reserve_ok t a req s : sched_ok s -> vtime t -> (forall q, req = Some q -> (q <= 15)%N) ->
  (req = Some 15%N /\ rx_reservation t a req s = Panic) \/ exists s', rx_reservation t a req s = Ok s' /\ sched_ok s'.
Proof.
  intros (L & now & l & C & I) V B. destruct req as [q|]; [|right; exists s; split; [reflexivity|split; [exact L|eauto]]].
  specialize (B q eq_refl). cbn [rx_reservation]. destruct (N.eq_dec q 15) as [->|NQ].
  - left. split; [reflexivity|]. rewrite C, request15_panics. reflexivity.
  - right. destruct (req_spec (ds_ul s) now l (tm_t t) (ad_ssi a) q I (proj1 V) ltac:(lia)) as (g & ul & E & H). rewrite C, E. cbn [bind].
    destruct g as [g|].
    + destruct (push_ok (ts_of t) (DlGrant a g) (set_ul ul s) L (ts_of_range t V)) as (qq & E2). unfold dl_enqueue_grant. rewrite E2.
      eexists. split; [reflexivity|]. split; [rewrite put_len; exact L|]. exists now, (l ++ [UlSchedSpec.mk_gr now (tm_t t) (ad_ssi a) q g]). split; [exact C|exact H].
    + eexists. split; [reflexivity|]. split; [exact L|]. exists now, l. split; [exact C|]. destruct H as [-> _]. exact I.
Qed.
Lemma owner_ok t blk s : sched_ok s -> vtime t -> blk <> BlockUndef -> exists o, ul_get_slot_owner t blk (ds_ul s) = Ok o.
Proof.
  intros (_ & now & l & _ & (S & _)) V B. unfold ul_get_slot_owner. rewrite <- (from_to_int t V). rewrite ul_index_from. cbn [bind]. rewrite tm_t_from, ul_cell_from by assumption. cbn [bind].
  destruct blk; try congruence; eauto. destruct (negb _); eauto.
Qed.
Lemma set_sch_same u : set_sch (um_sch u) u = u.
Proof. now destruct u. Qed.
Lemma sound_sch u s : sound u -> sched_ok s -> sound (set_sch s u).
Proof. intros (_ & H) S. split; [exact S|exact H]. Qed.

Lemma no_aie_collected ts ssi h a aie bits last : collected ts ssi h a aie bits last -> Forall no_aie h -> aie = false.
Proof.
  induction 1; intros F; apply Forall_app in F; destruct F as [F G]; auto. exact (Forall_inv G).
Qed.
Lemma aie_none d h t ssi : df_rel d h -> Forall no_aie h -> vtime t -> get_aie_info ssi t d = Ok false.
Proof.
  intros R F V. unfold get_aie_info. rewrite ts_index_ok by assumption. cbn [bind]. destruct (slot_map_ok d h t R V) as (-> & _). cbn [bind].
  pose proof (proj2 (proj2 R) (tm_t t) ssi (proj1 V)) as HE. destruct (coll (tm_t t) ssi h) as [[[[a aie] bits] last]|] eqn:EC; cbn [entry_ok] in HE.
  - destruct HE as (b & -> & St & _ & Ai & _). rewrite St. cbn [df_is_inactive]. f_equal. rewrite Ai. apply collected_coll in EC. exact (no_aie_collected _ _ _ _ _ _ _ EC F).
  - destruct HE as [->| ->]; reflexivity.
Qed.

(** * The source buffer of a copy *)
Lemma copy_src : forall f n b src b' src', wf src -> copy_bits_loop f n b src = Ok (b', src') -> exists m, m <= length (remaining src) /\ src' = adv src m.
Proof.
  induction f as [|f IH]; intros n b src b' src' W E; cbn [copy_bits_loop] in E; destruct (n =? 0); try discriminate E.
  1,2: injection E as _ <-; exists 0; rewrite adv_0; split; [lia|reflexivity].
  rewrite len_rem in E by assumption. cbn [bind] in E. destruct (Nat.leb_spec (Nat.min n 64) (length (remaining src))) as [H|H]; [|discriminate E]. cbn [assert bind] in E.
  rewrite read_bits_opt_spec in E by (assumption || lia). cbn [bind] in E. destruct (Nat.leb_spec (Nat.min n 64) (length (remaining src))); [|lia]. cbn [unwrap bind] in E.
  destruct (write_bits _ _ b) as [c| |]; try discriminate E. cbn [bind] in E.
  destruct (IH _ _ _ _ _ (wf_adv _ _ W H) E) as (m & Hm & ->). exists (Nat.min n 64 + m). rewrite adv_adv. split; [|reflexivity].
  rewrite remaining_adv, skipn_length in Hm by assumption. lia.
Qed.
Lemma next_src src ssi t d d' src' : wf src -> insert_next src ssi t d = Ok (d', src') -> exists m, m <= length (remaining src) /\ src' = adv src m.
Proof.
  intros W E. unfold insert_next in E. destruct (ts_index t) as [i| |]; try discriminate E. cbn [bind] in E. destruct (slot_map d i) as [m| |]; try discriminate E. cbn [bind] in E.
  assert (Same : exists m, m <= length (remaining src) /\ src = adv src m) by (exists 0; rewrite adv_0; split; [lia|reflexivity]).
  destruct (aget ssi m) as [b|]; [|injection E as _ <-; exact Same]. destruct (negb _); [injection E as _ <-; exact Same|].
  destruct (get_len (df_bits b)) as [l| |]; try discriminate E. cbn [bind] in E. rewrite len_rem in E by assumption. cbn [bind] in E.
  destruct (_ <? _)%N; [injection E as _ <-; exact Same|]. destruct (copy_bits _ _ _) as [[c s]| |] eqn:EC; try discriminate E. cbn [bind] in E. injection E as _ <-.
  exact (copy_src _ _ _ _ _ _ W EC).
Qed.
Lemma last_src src ssi t d o d' src' : wf src -> insert_last src ssi t d = Ok (o, d', src') -> exists m, m <= length (remaining src) /\ src' = adv src m.
Proof.
  intros W E. unfold insert_last in E. destruct (insert_next src ssi t d) as [[d1 s1]| |] eqn:E1; try discriminate E. cbn [bind] in E.
  destruct (ts_index t) as [i| |]; try discriminate E. cbn [bind] in E. destruct (slot_map d1 i) as [m| |]; try discriminate E. cbn [bind] in E.
  pose proof (next_src _ _ _ _ _ _ W E1) as H. destruct (aget ssi m) as [b|]; [|injection E as _ _ <-; exact H].
  destruct (set_raw_pos 0 (df_bits b)); try discriminate E. cbn [bind] in E. injection E as _ _ <-. exact H.
Qed.

(** * Lists of acts *)
Lemma wrap_nil (r : res (umac * list um_out * bool)) : (' (v, o', c) <- r ;; Ok (v, [] ++ o', c)) = r.
Proof. destruct r as [[[v o] c]| |]; reflexivity. Qed.
Lemma all_cons i x l u u' r : does i x u (Ok (u', [], true)) -> does_all i l u' r -> does_all i (x :: l) u r.
Proof. intros H1 H2. rewrite <- (wrap_nil r). now apply da_next with (u' := u'). Qed.
Lemma asks_ok i a req l u s r : rx_reservation (tv_time i) a req (um_sch u) = Ok s -> does_all i l (set_sch s u) r -> does_all i (asks a req ++ l) u r.
Proof.
  intros E H. destruct req as [q|]; cbn [asks app].
  - apply all_cons with (u' := set_sch s u); [|exact H]. cbn [does]. rewrite E. reflexivity.
  - cbn [rx_reservation] in E. injection E as <-. now rewrite set_sch_same in H.
Qed.
Lemma asks_panic i a req l u : rx_reservation (tv_time i) a req (um_sch u) = Panic -> does_all i (asks a req ++ l) u Panic.
Proof. intros E. destruct req as [q|]; [|discriminate E]. cbn [asks app]. apply da_panic. cbn [does]. rewrite E. reflexivity. Qed.
Lemma all_one i x u u' o c : does i x u (Ok (u', o, c)) -> does_all i [x] u (Ok (u', o, c)).
Proof.
  intros H. destruct c; [|now apply da_stop]. pose proof (da_next i x [] u u' o H _ (da_nil i u')) as X. cbn [bind] in X. now rewrite app_nil_r in X.
Qed.
Definition stolen_out (s : bool) : list um_out := if s then [OutStolen] else [].
Lemma stolen_all i s l u r : does_all i l u r -> does_all i (stolen_act s ++ l) u (' (v, o, c) <- r ;; Ok (v, stolen_out s ++ o, c)).
Proof.
  intros H. destruct s; cbn [stolen_act app stolen_out].
  - exact (da_next i AStolen l u u [OutStolen] eq_refl r H).
  - now rewrite wrap_nil.
Qed.

(** * What a handler must return *)
Definition outcome (i : tmv_ind) (pd : ul_pdu) (u : umac) (b : bitbuf) (code : res (umac * bitbuf * list um_out)) : Prop :=
  match pd with
  | Crash => code = Panic
  | Acts acts n => exists r, does_all i acts u r /\
      match r with
      | Ok (u', o, c) => sound u' /\ exists b', code = Ok (u', b', o) /\ wf b' /\
          match (if c then n else None) with
          | None => bstart b' = bstart b
          | Some n => 0 < n <= length (remaining b) /\ bpos b' = bstart b' /\ bstart b' = bstart b + n /\ remaining b' = skipn n (remaining b)
          end
      | Panic => code = Panic
      | Err _ => False
      end
  end.
Lemma out_stop i u b c : sound u -> wf c -> bstart c = bstart b -> outcome i (Acts [] None) u b (Ok (u, c, [])).
Proof. intros S W E. exists (Ok (u, [], true)). split; [constructor|]. split; [exact S|]. exists c. auto. Qed.
Lemma first_ok i a b u : wf b -> sound u -> vtime (tv_time i) ->
  exists d', insert_first b (tv_time i) a false (um_defrag u) = Ok (d', adv b (length (remaining b))) /\
    sound (set_defrag d' u) /\ does i (AFirst a (remaining b)) u (Ok (set_defrag d' u, [], true)).
Proof.
  intros W (S & h & R & F) V. destruct (first_step _ _ b (tv_time i) a false R V W) as (d' & E & R'). exists d'. split; [exact E|]. split.
  - split; [exact S|]. eexists. split; [exact R'|]. apply Forall_app. split; [exact F|]. constructor; [reflexivity|constructor].
  - cbn [does]. exists b. split; [exact W|]. split; [reflexivity|]. cbn [df_step]. rewrite E. reflexivity.
Qed.
Lemma sdu_ok i a b u : wf b -> remaining b <> [] ->
  exists sdu, bb_from_bitbuffer_pos b = Ok sdu /\ does i (ASdu a (remaining b)) u (Ok (u, [OutSdu (tv_time i) sdu a (tv_scr i)], true)).
Proof.
  intros W N. destruct (from_bitbuffer_pos_spec b W) as (c & E & Wc & Pc & _ & Xc). exists c. split; [exact E|]. cbn [does]. exists c. auto.
Qed.
Lemma deliver_ok i a b (first : bool) u : wf b -> sound u -> vtime (tv_time i) ->
  exists u' o b', (if first then ' (d, b) <- insert_first b (tv_time i) a false (um_defrag u) ;; Ok (set_defrag d u, b, [])
         else
           r <- get_len_remaining b ;;
           if (r =? 0)%nat then Ok (u, b, [])
           else sdu <- bb_from_bitbuffer_pos b ;; Ok (u, b, [OutSdu (tv_time i) sdu a (tv_scr i)])) = Ok (u', b', o) /\
    sound u' /\ does_all i (if first then [AFirst a (remaining b)] else sdu_act a (remaining b)) u (Ok (u', o, true)) /\
    exists m, b' = adv b m /\ m <= length (remaining b).
Proof.
  intros W S V. destruct first.
  - destruct (first_ok i a b u W S V) as (d' & E & S' & D). rewrite E. cbn [bind]. eexists _, _, _. split; [reflexivity|]. split; [exact S'|]. split; [now apply all_one|]. eauto.
  - rewrite len_rem by assumption. cbn [bind]. destruct (remaining b) as [|x l] eqn:ER; cbn [length Nat.eqb sdu_act].
    + eexists _, _, _. split; [reflexivity|]. split; [exact S|]. split; [constructor|]. exists 0. rewrite adv_0. auto.
    + rewrite <- ER. destruct (sdu_ok i a b u W ltac:(congruence)) as (c & E & D). rewrite E. cbn [bind]. eexists _, _, _. split; [reflexivity|]. split; [exact S|]. split; [now apply all_one|].
      exists 0. rewrite adv_0. split; [reflexivity|lia].
Qed.
(** what follows a cut: the next PDU *)
Lemma after_cut b h len nf m : wf b -> bpos b = bstart b -> h <= len -> len <= length (remaining b) -> 0 < h -> nf <= len - h ->
  wf (set_end (adv b h) (bstart b + (len - nf))) -> m <= length (remaining (set_end (adv b h) (bstart b + (len - nf)))) ->
  exists d, next_pdu (bend b) (len - nf + nf) (adv (set_end (adv b h) (bstart b + (len - nf))) m) = Ok d /\ wf d /\
    0 < len <= length (remaining b) /\ bpos d = bstart d /\ bstart d = bstart b + len /\ remaining d = skipn len (remaining b).
Proof.
  intros W P H1 H2 H3 H4 Wc Hm. assert (Wd : wf (adv (set_end (adv b h) (bstart b + (len - nf))) m)) by now apply wf_adv.
  assert (E : bpos (adv (set_end (adv b h) (bstart b + (len - nf))) m) <= bend b).
  { destruct Wd as (_ & X & _). unfold adv, set_pos, set_end in X |- *. cbn [bpos bend] in X |- *. rewrite remaining_length in H2. pose proof W as (Y1 & Y2 & _). lia. }
  destruct (next_spec b (adv (set_end (adv b h) (bstart b + (len - nf))) m) len (len - nf + nf) W P eq_refl eq_refl eq_refl Wd E ltac:(lia) H2) as (d & X & Wx & Px & Sx & Rx & _).
  exists d. split; [exact X|]. split; [exact Wx|]. split; [lia|]. auto.
Qed.

(** * MAC-DATA *)
Lemma data_core i p h a len (first stolen : bool) u b : wf b -> bpos b = bstart b -> 0 < h <= length (remaining b) -> len <= length (remaining b) ->
  (forall q, mu_req p = Some q -> (q <= 15)%N) -> sound u -> vtime (tv_time i) ->
  outcome i (if (len <? h)%nat then Crash else if mu_enc p then Acts (stolen_act stolen) None
             else let d := sdu_of (mu_fill p) h len (remaining b) in
                 Acts (stolen_act stolen ++ asks a (mu_req p) ++ (if first then [AFirst a d] else sdu_act a d)) (Some len)) u b
   (' (nf, len, b1) <- cut_pdu (mu_fill p) len (adv b h) ;;
      if mu_enc p then Ok (u, b1, stolen_out stolen) else
      s <- rx_reservation (tv_time i) a (mu_req p) (um_sch u) ;;
      let u := set_sch s u in
      ' (u, b1, out') <-
        (if (first : bool) then ' (d, b1) <- insert_first b1 (tv_time i) a false (um_defrag u) ;; Ok (set_defrag d u, b1, [])
         else
           r <- get_len_remaining b1 ;;
           if (r =? 0)%nat then Ok (u, b1, [])
           else sdu <- bb_from_bitbuffer_pos b1 ;; Ok (u, b1, [OutSdu (tv_time i) sdu a (tv_scr i)])) ;;
      b1 <- next_pdu (bend b) (len + nf) b1 ;;
      Ok (u, b1, stolen_out stolen ++ out')).
Proof.
  intros W P H1 H2 Q S V. destruct (Nat.ltb_spec len h) as [H|H].
  { cbn [outcome]. rewrite cut_short by (assumption || lia). reflexivity. }
  destruct (cut_spec (mu_fill p) len h b W P H H2) as (nf & E & Hnf & R & Wc). rewrite E. cbn [bind]. clear E.
  set (c := set_end (adv b h) (bstart b + (len - nf))) in *.
  destruct (mu_enc p).
  { cbn [outcome]. exists (Ok (u, stolen_out stolen ++ [], true)). split.
    - rewrite <- (app_nil_r (stolen_act stolen)). exact (stolen_all i stolen [] u (Ok (u, [], true)) (da_nil i u)).
    - split; [exact S|]. exists c. rewrite app_nil_r. auto. }
  cbv zeta. cbn [outcome]. destruct (reserve_ok (tv_time i) a (mu_req p) (um_sch u) (proj1 S) V Q) as [(_ & ER)|(s & ER & SO)].
  - rewrite ER. exists Panic. split; [|reflexivity]. apply (stolen_all i stolen _ u Panic). now apply asks_panic.
  - rewrite ER. cbn [bind]. assert (S' : sound (set_sch s u)) by now apply sound_sch.
    destruct (deliver_ok i a c first (set_sch s u) Wc S' V) as (u' & o & b' & ED & SU & DA & m & -> & Hm). rewrite ED. cbn [bind]. clear ED. rewrite R in DA.
    destruct (after_cut b h len nf m W P H H2 (proj1 H1) Hnf Wc Hm) as (d & EN & Wd & X1 & X2 & X3 & X4). fold c in EN. rewrite EN. cbn [bind].
    exists (Ok (u', stolen_out stolen ++ o, true)). split; [|split; [exact SU|exists d; split; [reflexivity|]; split; [exact Wd|]; exact (conj X1 (conj X2 (conj X3 X4)))]].
    apply (stolen_all i stolen _ u (Ok (u', o, true))). now apply asks_ok with (s := s).
Qed.
Lemma start_pos b : wf b -> bpos b = bstart b -> get_pos b = Ok 0.
Proof. intros W P. rewrite pos_ok by assumption. now rewrite P, Nat.sub_diag. Qed.
Lemma adv_len b h : wf b -> h <= length (remaining b) -> bpos b = bstart b -> get_len (adv b h) = Ok (length (remaining b)).
Proof.
  intros W H P. rewrite win_len by now apply wf_adv. f_equal. unfold window, remaining, adv, set_pos. cbn [bytes bstart bend]. now rewrite P.
Qed.
Lemma data_ok i u b rest : wf b -> bpos b = bstart b -> remaining b = [false; false] ++ rest -> sound u -> vtime (tv_time i) ->
  outcome i (data_pdu (remaining b)) u b (rx_mac_data i u b).
Proof.
  intros W P R S V. unfold rx_mac_data, data_pdu. rewrite start_pos by assumption. cbn [bind Nat.eqb assert].
  pose proof (read_ul mdata_read [false; false] rest _ b mdata_local mdata_safe mdata_shape W R) as H.
  destruct (parse mdata_read (remaining b)) as [[p h]|]; [|destruct H as (e & ->); now apply out_stop].
  destruct H as (Hh & -> & Sh & Hf & Hq). assert (Wh : wf (adv b h)) by now apply wf_adv.
  destruct p as [fill en ad el len fr rq]. unfold ul_shape in Sh. cbn [mu_fill mu_enc mu_addr mu_el mu_len mu_frag mu_req] in *.
  destruct ad as [a|], el as [e|]; try contradiction; cbn [is_some unwrap bind]; [|now apply out_stop].
  destruct Sh as (H0 & HL & _). rewrite adv_len by assumption. cbn [bind].
  assert (Clip : forall x, (if (length (remaining b) <? x)%nat then length (remaining b) else x) = Nat.min x (length (remaining b))) by (intros x; destruct (Nat.ltb_spec (length (remaining b)) x); lia).
  assert (Clip0 : (if (length (remaining b) <? length (remaining b))%nat then length (remaining b) else length (remaining b)) = length (remaining b)) by (now destruct (_ <? _)%nat).
  set (p := mk_mul fill en (Some a) None len fr rq) in *.
  pose proof (fun len first stolen HLe => data_core i p h a len first stolen u b W P (conj H0 Hh) HLe Hq S V) as Core. unfold stolen_out in Core.
  change (bend (adv b h)) with (bend b).
  destruct len as [k|].
  - destruct (HL ltac:(discriminate)) as (-> & -> & ->). clear HL.
    destruct (N.eqb_spec k 0) as [->|NK].
    + cbn [bind]. rewrite (Clip 37). replace (Nat.min 37 (length (remaining b))) with 37 by lia.
      destruct (cut_spec fill 37 37 b W P (le_n _) Hh) as (nf & E & Hnf & _ & Wc). rewrite E. cbn [bind]. now apply out_stop.
    + replace (2 <=? k)%N with (negb (k <? 2)%N) by (destruct (N.leb_spec 2 k), (N.ltb_spec k 2); (reflexivity || lia)).
      destruct (N.ltb_spec k 2) as [K2|K2]; cbn [negb andb].
      { destruct (N.eqb_spec k 62); [lia|]. destruct (N.eqb_spec k 63); [lia|]. reflexivity. }
      replace (k <? 56)%N with (k <=? 55)%N by (destruct (N.leb_spec k 55), (N.ltb_spec k 56); (reflexivity || lia)).
      destruct (N.leb_spec k 55) as [K5|K5].
      * cbn [bind]. rewrite Clip, (Nat.mul_comm (N.to_nat k) 8). exact (Core (Nat.min (8 * N.to_nat k) (length (remaining b))) false false ltac:(lia)).
      * destruct (N.eqb_spec k 62) as [->|N62]; [cbn [bind]; rewrite Clip0; exact (Core (length (remaining b)) false true (le_n _))|].
        destruct (N.eqb_spec k 63) as [->|N63]; [cbn [bind]; rewrite Clip0; exact (Core (length (remaining b)) true false (le_n _))|]. reflexivity.
  - specialize (Hf eq_refl). destruct fr as [f|]; [|congruence]. cbn [unwrap bind]. rewrite Clip0. exact (Core (length (remaining b)) f false (le_n _)).
Qed.

(** * MAC-ACCESS *)
Lemma access_core i p h a len (first : bool) u b : wf b -> bpos b = bstart b -> 0 < h <= length (remaining b) -> len <= length (remaining b) ->
  (forall q, mu_req p = Some q -> (q <= 15)%N) -> sound u -> vtime (tv_time i) ->
  outcome i (if (len <? h)%nat then Crash else if mu_enc p then Acts [AAck a] None
             else let d := sdu_of (mu_fill p) h len (remaining b) in
                 if first then Acts (AAck a :: asks a (mu_req p) ++ [AFirst a d]) (Some len)
                 else Acts (AAck a :: asks a (mu_req p) ++ sdu_act a d) (match d with [] => None | _ => Some len end)) u b
   (' (nf, len, b1) <- cut_pdu (mu_fill p) len (adv b h) ;;
      s <- dl_enqueue_random_access_ack (ts_of (tv_time i)) a (um_sch u) ;;
      let u := set_sch s u in
      if mu_enc p then Ok (u, b1, []) else
      s <- rx_reservation (tv_time i) a (mu_req p) (um_sch u) ;;
      let u := set_sch s u in
      if first then
        ' (d, b1) <- insert_first b1 (tv_time i) a false (um_defrag u) ;;
        b1 <- next_pdu (bend b) (len + nf) b1 ;; Ok (set_defrag d u, b1, [])
      else
        r <- get_len_remaining b1 ;;
        if (r =? 0)%nat then Ok (u, b1, [])
        else
          sdu <- bb_from_bitbuffer_pos b1 ;;
          b1 <- next_pdu (bend b) (len + nf) b1 ;; Ok (u, b1, [OutSdu (tv_time i) sdu a (tv_scr i)])).
Proof.
  intros W P H1 H2 Q S V. destruct (Nat.ltb_spec len h) as [H|H].
  { cbn [outcome]. rewrite cut_short by (assumption || lia). reflexivity. }
  destruct (cut_spec (mu_fill p) len h b W P H H2) as (nf & E & Hnf & R & Wc). rewrite E. cbn [bind]. clear E.
  pose proof (fun m => after_cut b h len nf m W P H H2 (proj1 H1) Hnf Wc) as Next.
  set (c := set_end (adv b h) (bstart b + (len - nf))) in *.
  destruct (ack_ok (tv_time i) a (um_sch u) (proj1 S) V) as (s0 & EA & SA). rewrite EA. cbn [bind]. cbv zeta.
  assert (DA : does i (AAck a) u (Ok (set_sch s0 u, [], true))) by (cbn [does]; rewrite EA; reflexivity).
  assert (S0 : sound (set_sch s0 u)) by now apply sound_sch. set (u0 := set_sch s0 u) in *.
  destruct (mu_enc p).
  { cbn [outcome]. exists (Ok (u0, [], true)). split; [now apply all_one|]. split; [exact S0|]. exists c. auto. }
  destruct (reserve_ok (tv_time i) a (mu_req p) (um_sch u0) (proj1 S0) V Q) as [(_ & ER)|(s & ER & SO)].
  { rewrite ER. assert (X : forall l, does_all i (AAck a :: asks a (mu_req p) ++ l) u Panic) by (intros l; apply all_cons with (u' := u0); [exact DA|now apply asks_panic]).
    destruct first; (exists Panic; split; [apply X|reflexivity]). }
  rewrite ER. cbn [bind]. assert (S' : sound (set_sch s u0)) by now apply sound_sch. set (u1 := set_sch s u0) in *.
  assert (X : forall l r, does_all i l u1 r -> does_all i (AAck a :: asks a (mu_req p) ++ l) u r) by (intros l r D; apply all_cons with (u' := u0); [exact DA|now apply asks_ok with (s := s)]).
  destruct first.
  - destruct (first_ok i a c u1 Wc S' V) as (d' & EF & SF & DF). rewrite EF. cbn [bind]. rewrite R in DF.
    destruct (Next _ (le_n _)) as (d & EN & Wd & X1 & X2 & X3 & X4). rewrite EN. cbn [bind outcome].
    exists (Ok (set_defrag d' u1, [], true)). split; [apply X; now apply all_one|]. split; [exact SF|]. exists d. split; [reflexivity|]. split; [exact Wd|]. exact (conj X1 (conj X2 (conj X3 X4))).
  - rewrite len_rem by assumption. cbn [bind]. rewrite R. destruct (sdu_of (mu_fill p) h len (remaining b)) as [|x l] eqn:ED.
    + cbn [length Nat.eqb sdu_act outcome]. exists (Ok (u1, [], true)). split; [apply X; constructor|]. split; [exact S'|]. exists c. auto.
    + cbn [length Nat.eqb]. destruct (sdu_ok i a c u1 Wc ltac:(congruence)) as (sdu & EB & DB). rewrite EB. cbn [bind]. rewrite R in DB.
      destruct (Next 0 ltac:(lia)) as (d & EN & Wd & X1 & X2 & X3 & X4). rewrite adv_0 in EN. rewrite EN. cbn [bind outcome].
      eexists (Ok (u1, _, true)). split; [apply X; cbn [sdu_act]; apply all_one; exact DB|]. split; [exact S'|]. exists d. split; [reflexivity|]. split; [exact Wd|]. exact (conj X1 (conj X2 (conj X3 X4))).
Qed.
Lemma access_ok i u b rest : wf b -> bpos b = bstart b -> remaining b = [false] ++ rest -> sound u -> vtime (tv_time i) ->
  outcome i (access_pdu (remaining b)) u b (rx_mac_access i u b).
Proof.
  intros W P R S V. unfold rx_mac_access, access_pdu. rewrite start_pos by assumption. cbn [bind Nat.eqb assert].
  pose proof (read_ul macc_read [false] rest _ b macc_local macc_safe macc_shape W R) as H.
  destruct (parse macc_read (remaining b)) as [[p h]|]; [|destruct H as (e & ->); now apply out_stop].
  destruct H as (Hh & -> & Sh & Hq). assert (Wh : wf (adv b h)) by now apply wf_adv.
  destruct p as [fill en ad el len fr rq]. unfold ul_shape in Sh. cbn [mu_fill mu_enc mu_addr mu_el mu_len mu_frag mu_req] in *.
  destruct ad as [a|], el as [e|]; try contradiction; cbn [is_some unwrap bind]; [|now apply out_stop].
  destruct Sh as (H0 & HL & HN). rewrite adv_len by assumption. cbn [bind].
  assert (Clip : forall x, (if (length (remaining b) <? x)%nat then length (remaining b) else x) = Nat.min x (length (remaining b))) by (intros x; destruct (Nat.ltb_spec (length (remaining b)) x); lia).
  set (p := mk_mul fill en (Some a) None len fr rq) in *.
  pose proof (fun len first HLe => access_core i p h a len first u b W P (conj H0 Hh) HLe Hq S V) as Core.
  change (bend (adv b h)) with (bend b). unfold macc_is_null, macc_is_frag_start, p in *. cbn [mu_len mu_frag] in *.
  destruct len as [k|].
  - destruct (HL ltac:(discriminate)) as (-> & -> & ->). clear HL. destruct (N.eqb_spec k 0) as [->|NK].
    + rewrite (Clip 36). replace (Nat.min 36 (length (remaining b))) with 36 by lia.
      destruct (cut_spec fill 36 36 b W P (le_n _) Hh) as (nf & E & Hnf & _ & Wc). rewrite E. cbn [bind]. now apply out_stop.
    + rewrite Clip, (Nat.mul_comm (N.to_nat k) 8). exact (Core (Nat.min (8 * N.to_nat k) (length (remaining b))) false ltac:(lia)).
  - rewrite Clip, Nat.min_id. exact (Core (length (remaining b)) (match fr with Some f => f | None => false end) (le_n _)).
Qed.

(** * Continuations *)
Lemma frag_ok i u b rest : wf b -> bpos b = bstart b -> remaining b = [false; true; false] ++ rest -> sound u -> vtime (tv_time i) -> tv_blk i <> BlockUndef ->
  outcome i (frag_pdu (remaining b)) u b (rx_mac_frag_ul i u b).
Proof.
  intros W P R S V B. unfold rx_mac_frag_ul, frag_pdu. rewrite start_pos by assumption. cbn [bind Nat.eqb assert].
  pose proof (read_ul mfrag_read [false; true; false] rest _ b mfrag_local mfrag_safe mfrag_shape W R) as H.
  destruct (parse mfrag_read (remaining b)) as [[fill h]|]; [|destruct H as (e & ->); now apply out_stop].
  destruct H as (Hh & -> & ->). rewrite adv_len by assumption. cbn [bind].
  destruct (cut_spec fill (length (remaining b)) 4 b W P Hh (le_n _)) as (nf & E & Hnf & RC & Wc). rewrite E. cbn [bind]. clear E.
  set (c := set_end (adv b 4) (bstart b + (length (remaining b) - nf))) in *. assert (Sc : bstart c = bstart b) by reflexivity.
  destruct (owner_ok (tv_time i) (tv_blk i) (um_sch u) (proj1 S) V B) as (o & EO). rewrite EO. cbn [bind outcome].
  destruct o as [ssi|].
  - destruct S as (S & h & RD & F). rewrite (aie_none _ h _ ssi RD F V). cbn [bind].
    destruct (next_core (um_defrag u) h c (tv_time i) ssi RD V Wc) as (d' & c' & EN & RD'). rewrite EN. cbn [bind].
    destruct (next_src _ _ _ _ _ _ Wc EN) as (m & Hm & ->). exists (Ok (set_defrag d' u, [], true)). split.
    + apply all_one. cbn [does]. exists c. split; [exact Wc|]. split; [exact RC|]. rewrite EO. cbn [bind]. rewrite (aie_none _ h _ ssi RD F V). cbn [bind df_step]. rewrite EN. reflexivity.
    + split; [split; [exact S|]; eexists; split; [exact RD'|]; apply Forall_app; split; [exact F|]; constructor; [exact Logic.I|constructor]|].
      eexists. split; [reflexivity|]. split; [now apply wf_adv|exact Sc].
  - exists (Ok (u, [], true)). split; [|split; [exact S|]; exists c; auto].
    apply all_one. cbn [does]. exists c. split; [exact Wc|]. split; [exact RC|]. rewrite EO. reflexivity.
Qed.
Lemma end_core i fill h len req u b : wf b -> bpos b = bstart b -> 0 < h <= length (remaining b) -> len <= length (remaining b) ->
  (forall q, req = Some q -> (q <= 15)%N) -> sound u -> vtime (tv_time i) -> tv_blk i <> BlockUndef ->
  outcome i (end_pdu fill h len req (remaining b)) u b (rx_last i fill len req u (adv b h)).
Proof.
  intros W P H1 H2 Q S V B. unfold end_pdu, rx_last. change (bend (adv b h)) with (bend b). destruct (Nat.ltb_spec len h) as [H|H].
  { cbn [outcome]. rewrite cut_short by (assumption || lia). reflexivity. }
  destruct (cut_spec fill len h b W P H H2) as (nf & E & Hnf & RC & Wc). rewrite E. cbn [bind]. clear E.
  pose proof (fun m => after_cut b h len nf m W P H H2 (proj1 H1) Hnf Wc) as Next.
  set (c := set_end (adv b h) (bstart b + (len - nf))) in *. assert (Sc : bstart c = bstart b) by reflexivity.
  destruct (owner_ok (tv_time i) (tv_blk i) (um_sch u) (proj1 S) V B) as (o & EO). rewrite EO. cbn [bind outcome].
  destruct o as [ssi|].
  - destruct S as (S & hh & RD & F). rewrite (aie_none _ hh _ ssi RD F V). cbn [bind negb assert].
    destruct (last_step (um_defrag u) hh c (tv_time i) ssi RD V Wc) as (o & d' & c' & EN & RD' & _). rewrite EN. cbn [bind].
    destruct (last_src _ _ _ _ _ _ _ Wc EN) as (m & Hm & ->).
    assert (S' : sound (set_defrag d' u)).
    { split; [exact S|]. eexists. split; [exact RD'|]. apply Forall_app. split; [exact F|]. constructor; [exact Logic.I|constructor]. }
    assert (D : forall r, r = match o with
               | Some b0 => s <- rx_reservation (tv_time i) (df_addr b0) req (um_sch (set_defrag d' u)) ;;
                   Ok (set_sch s (set_defrag d' u), [OutSdu (tv_time i) (df_bits b0) (df_addr b0) (tv_scr i)], true)
               | None => Ok (set_defrag d' u, [], false) end -> does i (ALast req (sdu_of fill h len (remaining b))) u r).
    { intros r ->. cbn [does]. exists c. split; [exact Wc|]. split; [exact RC|]. rewrite EO. cbn [bind]. rewrite (aie_none _ hh _ ssi RD F V). cbn [bind negb assert df_step]. rewrite EN. cbn [bind].
      destruct o; reflexivity. }
    destruct o as [f|].
    + change (um_sch u) with (um_sch (set_defrag d' u)). destruct (reserve_ok (tv_time i) (df_addr f) req (um_sch (set_defrag d' u)) S V Q) as [(_ & ER)|(s & ER & SO)].
      * exists Panic. split; [apply da_panic, D; rewrite ER; reflexivity|]. rewrite ER. reflexivity.
      * destruct (Next m Hm) as (d & EX & Wd & X1 & X2 & X3 & X4). rewrite ER in *. cbn [bind] in *. rewrite EX. cbn [bind].
        eexists (Ok (_, _, true)). split; [apply all_one, D; reflexivity|]. split; [now apply sound_sch|]. exists d. split; [reflexivity|]. split; [exact Wd|]. exact (conj X1 (conj X2 (conj X3 X4))).
    + exists (Ok (set_defrag d' u, [], false)). split; [apply da_stop, D; reflexivity|]. split; [exact S'|]. eexists. split; [reflexivity|]. split; [now apply wf_adv|exact Sc].
  - exists (Ok (u, [], false)). split; [|split; [exact S|]; exists c; auto].
    apply da_stop. cbn [does]. exists c. split; [exact Wc|]. split; [exact RC|]. rewrite EO. reflexivity.
Qed.
Lemma endul_ok i u b rest : wf b -> bpos b = bstart b -> remaining b = [false; true; true] ++ rest -> sound u -> vtime (tv_time i) -> tv_blk i <> BlockUndef ->
  outcome i (endul_pdu (remaining b)) u b (rx_mac_end_ul i u b).
Proof.
  intros W P R S V B. unfold rx_mac_end_ul, endul_pdu. rewrite start_pos by assumption. cbn [bind Nat.eqb assert].
  pose proof (read_ul meul_read [false; true; true] rest _ b meul_local meul_safe meul_shape W R) as H.
  destruct (parse meul_read (remaining b)) as [[p h]|]; [|destruct H as (e & ->); now apply out_stop].
  destruct H as (Hh & -> & -> & Hq & Hl). rewrite adv_len by assumption. cbn [bind]. destruct (eu_len p) as [k|]; [|congruence].
  assert (Clip : forall x, (if (length (remaining b) <? x)%nat then length (remaining b) else x) = Nat.min x (length (remaining b))) by (intros x; destruct (Nat.ltb_spec (length (remaining b)) x); lia).
  rewrite Clip, (Nat.mul_comm (N.to_nat k) 8). apply end_core; try assumption; try lia. rewrite Hq. discriminate.
Qed.
Lemma endhu_ok i u b rest : wf b -> bpos b = bstart b -> remaining b = [true] ++ rest -> sound u -> vtime (tv_time i) -> tv_blk i <> BlockUndef ->
  outcome i (endhu_pdu (remaining b)) u b (rx_mac_end_hu i u b).
Proof.
  intros W P R S V B. unfold rx_mac_end_hu, endhu_pdu. rewrite start_pos by assumption. cbn [bind Nat.eqb assert].
  pose proof (read_ul mehu_read [true] rest _ b mehu_local mehu_safe mehu_shape W R) as H.
  destruct (parse mehu_read (remaining b)) as [[p h]|]; [|destruct H as (e & ->); now apply out_stop].
  destruct H as (Hh & -> & -> & Hq). rewrite adv_len by assumption. cbn [bind].
  assert (Clip : forall x, (if (length (remaining b) <? x)%nat then length (remaining b) else x) = Nat.min x (length (remaining b))) by (intros x; destruct (Nat.ltb_spec (length (remaining b)) x); lia).
  destruct (eh_len p) as [k|].
  - destruct (N.eqb_spec k 0); [apply out_stop; [assumption|now apply wf_adv|reflexivity]|]. rewrite Clip, (Nat.mul_comm (N.to_nat k) 8). apply end_core; try assumption; lia.
  - apply end_core; try assumption; lia.
Qed.

(** * MAC-U-SIGNAL, MAC-U-BLCK *)
Lemma signal_ok i u b rest : wf b -> bpos b = bstart b -> remaining b = [true; true] ++ rest -> sound u ->
  outcome i (signal_pdu (remaining b)) u b (rx_ul_mac_u_signal i u b).
Proof.
  intros W P R S. unfold rx_ul_mac_u_signal, signal_pdu.
  pose proof (read_ul usignal_read [true; true] rest _ b usignal_local usignal_safe usignal_shape W R) as H.
  destruct (parse usignal_read (remaining b)) as [[st h]|]; [|destruct H as (e & ->); now apply out_stop].
  destruct H as (Hh & -> & ->). assert (Wh : wf (adv b 3)) by now apply wf_adv. destruct st; [now apply out_stop|].
  rewrite len_rem by assumption. cbn [bind]. rewrite remaining_adv by assumption. destruct (skipn 3 (remaining b)) as [|x l] eqn:ES; cbn [length Nat.eqb sdu_act].
  - now apply out_stop.
  - assert (EA : remaining (adv b 3) = x :: l) by (now rewrite remaining_adv).
    destruct (sdu_ok i (mk_addr 0 false SsiSsi) (adv b 3) u Wh ltac:(congruence)) as (c & E & D). rewrite E. cbn [bind outcome]. rewrite EA in D.
    eexists (Ok (u, _, true)). split; [apply all_one; exact D|]. split; [exact S|]. eexists. split; [reflexivity|]. auto.
Qed.
Lemma blck_ok i u b rest : wf b -> remaining b = [true; true; false] ++ rest -> sound u -> outcome i (blck_pdu (remaining b)) u b (rx_ul_mac_u_blck u b).
Proof.
  intros W R S. unfold rx_ul_mac_u_blck, blck_pdu. pose proof (read_parse ublck_read [true; true; false] rest b ublck_local ublck_safe W R) as H.
  destruct (parse ublck_read (remaining b)) as [[p h]|].
  - destruct H as (_ & ->). reflexivity.
  - destruct H as (e & ->). now apply out_stop.
Qed.

(** * The PDU *)
Lemma pdu_ok i u b x y z rest : wf b -> bpos b = bstart b -> remaining b = x :: y :: z :: rest -> sound u -> vtime (tv_time i) -> on_channel i = true ->
  outcome i (first_pdu (tv_chan i) (remaining b)) u b (rx_pdu i (bits_val [x; y; z]) u b).
Proof.
  intros W P R S V C. assert (B : tv_blk i <> BlockUndef) by (intros E; unfold on_channel in C; rewrite E in C; destruct (tv_chan i); discriminate C).
  unfold first_pdu, rx_pdu. destruct (tv_chan i) eqn:EC; try (unfold on_channel in C; rewrite EC in C; discriminate C); rewrite R at 1.
  - destruct x, y, z; cbn [bits_val]; try (apply out_stop; [assumption|assumption|reflexivity]).
    + apply blck_ok with (rest := rest); assumption.
    + apply endul_ok with (rest := rest); assumption.
    + apply frag_ok with (rest := rest); assumption.
    + apply data_ok with (rest := true :: rest); assumption.
    + apply data_ok with (rest := false :: rest); assumption.
  - destruct x, y, z; cbn [bits_val]; try (apply out_stop; [assumption|assumption|reflexivity]).
    + apply signal_ok with (rest := true :: rest); assumption.
    + apply signal_ok with (rest := false :: rest); assumption.
    + apply endul_ok with (rest := rest); assumption.
    + apply frag_ok with (rest := rest); assumption.
    + apply data_ok with (rest := true :: rest); assumption.
    + apply data_ok with (rest := false :: rest); assumption.
  - destruct x.
    + replace (N.land (N.shiftr (bits_val [true; y; z]) 2) 1 =? 0)%N with false by (destruct y, z; reflexivity). apply endhu_ok with (rest := y :: z :: rest); assumption.
    + replace (N.land (N.shiftr (bits_val [false; y; z]) 2) 1 =? 0)%N with true by (destruct y, z; reflexivity). apply access_ok with (rest := y :: z :: rest); assumption.
Qed.

(** * The block *)
Lemma sch_ok i : forall fuel u b, length (remaining b) < fuel -> wf b -> bpos b = bstart b -> sound u -> vtime (tv_time i) -> on_channel i = true ->
  exists r, rx_tmv_sch fuel i u b = r /\ heard i (remaining b) u r /\ (forall u' o, r = Ok (u', o) -> sound u').
Proof.
  induction fuel as [|fuel IH]; intros u b HF W P S V C; [lia|]. cbn [rx_tmv_sch]. rewrite peek_bits_spec by (assumption || lia). cbn [bind].
  destruct (Nat.leb_spec 3 (length (remaining b))) as [H3|H3].
  2:{ exists (Ok (u, [])). split; [reflexivity|]. split; [|intros u' o E; injection E as <- <-; exact S].
      apply (h_stop i (remaining b) u [] None u [] true); [|constructor|now right].
      unfold first_pdu. destruct (tv_chan i), (remaining b) as [|? [|? [|? ?]]]; cbn [length] in H3; try lia; repeat match goal with x : bool |- _ => destruct x end; reflexivity. }
  assert (ER : exists x y z rest, remaining b = x :: y :: z :: rest).
  { destruct (remaining b) as [|x [|y [|z rest]]]; cbn [length] in H3; try lia. eauto. }
  destruct ER as (x & y & z & rest & ER). pose proof (pdu_ok i u b x y z rest W P ER S V C) as O. unfold outcome in O.
  replace (firstn 3 (remaining b)) with [x; y; z] by now rewrite ER.
  destruct (first_pdu (tv_chan i) (remaining b)) as [|acts n] eqn:EP.
  { rewrite O. exists Panic. split; [reflexivity|]. split; [now apply h_crash|discriminate]. }
  destruct O as (r & DA & O). destruct r as [[[u' o] c]|e|].
  - destruct O as (S' & b' & EX & Wb & O). rewrite EX. cbn [bind]. rewrite win_len by assumption. cbn [bind].
    destruct (if c then n else None) as [k|] eqn:EN.
    + destruct c; [|discriminate EN]. subst n. destruct O as (Hk & Pb & Sb & Rb).
      assert (EW : window b' = remaining b') by (unfold window, remaining; now rewrite Pb). rewrite EW, Rb.
      destruct (Nat.eqb_spec (bstart b') (bstart b)); [lia|]. cbn [negb andb].
      destruct (Nat.leb_spec 16 (length (skipn k (remaining b)))) as [H16|H16].
      * destruct (IH u' b' ltac:(rewrite Rb; rewrite skipn_length; lia) Wb Pb S' V C) as (r & -> & HH & HS). rewrite Rb in HH.
        eexists. split; [reflexivity|]. split.
        -- apply h_next with (acts := acts) (n := k) (u' := u'); auto. rewrite skipn_length in *. lia.
        -- intros u2 o2 E2. destruct r as [[u3 o3]| |]; try discriminate E2. cbn [bind] in E2. injection E2 as <- _. eapply HS. reflexivity.
      * eexists. split; [reflexivity|]. split; [now apply h_last with (acts := acts) (n := k)|]. intros u2 o2 E2. injection E2 as <- _. exact S'.
    + rewrite O, Nat.eqb_refl. cbn [negb andb]. eexists. split; [reflexivity|]. split.
      * apply h_stop with (acts := acts) (n := n) (c := c); auto. destruct c; [right; exact EN|left; reflexivity].
      * intros u2 o2 E2. injection E2 as <- _. exact S'.
  - contradiction.
  - rewrite O. exists Panic. split; [reflexivity|]. split; [now apply h_panic with (acts := acts) (n := n)|discriminate].
Qed.
(** The block as received: the buffer is read from its start. *)
Lemma block_ok i pdu u : wf pdu -> bpos pdu = bstart pdu -> sound u -> vtime (tv_time i) -> on_channel i = true ->
  exists r, rx_tmv_unitdata_ind i pdu u = r /\ heard i (window pdu) u r /\ (forall u' o, r = Ok (u', o) -> sound u').
Proof.
  intros W P S V C. unfold rx_tmv_unitdata_ind. rewrite win_len by assumption. cbn [bind].
  assert (EW : window pdu = remaining pdu) by (unfold window, remaining; now rewrite P). rewrite EW.
  destruct (sch_ok i (Datatypes.S (length (remaining pdu))) u pdu (le_n _) W P S V C) as (r & E & H1 & H2). exists r. split; [|auto].
  unfold on_channel in C. destruct (tv_chan i), (tv_blk i); try discriminate C; exact E.
Qed.
