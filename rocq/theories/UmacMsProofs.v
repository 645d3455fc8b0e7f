(** Proofs about the upper MAC of a mobile station: a block is read as the receiver of DlSchedSpec reads it. *)
From Coq Require Import Arith.
From Verif Require Import Base BitsLib BitBuffer BitBufferProofs BitBufferOps Codec CodecProofs TypedFields MacFields MacPdus MacBroadcast MacBroadcastProofs MacSpec FillBits FillProofs FragSpec FragProofs
  TdmaTime TdmaTimeProofs Defrag DefragProofs UlSched ErrorControl DlSched DlSchedSpec DlChunk HeardSpec UmacBs UlBlockSpec UlBlockProofs UlBlockPdu StealProofs UmacMs MsSpec.
Open Scope nat_scope.

(** * The readers *)
Lemma local_opt {A} c (r : reader A) : rlocal r -> rlocal (ropt c r).
Proof. intros H. unfold ropt. apply local_if; [|apply local_ret]. apply local_bind; [exact H|intros; apply local_ret]. Qed.
Lemma local_opt_flag {A} (r : reader A) : rlocal r -> rlocal (ropt_flag r).
Proof. intros H. unfold ropt_flag. apply local_bind; [apply local_flag|]. intros f. now apply local_opt. Qed.
Lemma sg_local : rlocal sg_read. Proof. unfold sg_read. local. Qed.
Lemma ca_local : rlocal ca_read.
Proof. unfold ca_read. repeat first [apply local_opt|progress local]. Qed.
Lemma mr_addr_local e t : rlocal (mr_read_addr e t).
Proof. unfold mr_read_addr. local. Qed.
Lemma mr_local : rlocal mr_read.
Proof. unfold mr_read. repeat first [apply local_opt_flag|apply sg_local|apply ca_local|apply mr_addr_local|progress local]. Qed.
Lemma mend_local : rlocal mend_read.
Proof. unfold mend_read. repeat first [apply local_opt_flag|apply sg_local|apply ca_local|progress local]. Qed.
Lemma parse_ok {A} (r : reader A) b x n : rlocal r -> wf b -> parse r (remaining b) = Some (x, n) -> n <= length (remaining b) /\ r b = Ok (x, adv b n).
Proof.
  intros L W E. unfold parse in E. destruct (from_bitstr_spec (remaining b)) as (c & Ec & Wc & Pc & _ & Xc). rewrite Ec in E.
  assert (R : remaining b = remaining c) by (unfold remaining at 2; rewrite Pc; symmetry; exact Xc).
  specialize (L b c W Wc R). destruct (r b) as [[y d]| |], (r c) as [[y' d']| |]; try contradiction; try discriminate E.
  destruct L as (<- & m & Hm & -> & ->). injection E as <- <-. unfold adv, set_pos. cbn [bpos]. replace (bpos c + m - bpos c) with m by lia. auto.
Qed.
Lemma local_took {A} (r : reader A) : rlocal r -> took (fun _ _ => True) r.
Proof. intros L b x b' W E. specialize (L b b W W eq_refl). rewrite E in L. destruct L as (_ & n & Hn & -> & _). eauto. Qed.


(** * The header of a MAC-RESOURCE *)
Definition mr_shape (p : mac_resource) (n : nat) : Prop :=
  option_map on_air (mr_addr p) = mr_addr p /\ (mr_is_null p = true -> n = 16 /\ mr_fill p = false /\ mr_addr p = None).
Definition addr_kind (x : option tetra_addr * option N * option N) (m : nat) : Prop :=
  option_map on_air (fst (fst x)) = fst (fst x) /\ is_none (fst (fst x)) && is_none (snd (fst x)) && is_none (snd x) = false.
Definition kept (a : tetra_addr) (m : nat) : Prop := on_air a = a.
Lemma took_ad e ty : match ty with SsiSsi | SsiUssi | SsiSmi => True | _ => False end -> took kept (s <~ rfield 24 ;; rret (mk_addr s e ty)).
Proof.
  intros H. eapply took_bind; [apply took_field; lia|]. intros s n _. apply took_ret. unfold kept, on_air. destruct ty; try contradiction; reflexivity.
Qed.
Lemma took_mr_addr e t : took addr_kind (mr_read_addr e t).
Proof.
  unfold mr_read_addr. cbv zeta.
  repeat (apply took_if; intros _); try apply took_panic.
  1,3,4: eapply took_bind; [now apply took_ad|]; intros a n K; apply took_ret; split; [cbn [fst snd option_map]; now rewrite K|reflexivity].
  1: eapply took_bind; [apply took_field; lia|]; intros a n K; apply took_ret; split; reflexivity.
  all: eapply took_bind; [now apply took_ad|]; intros a n K; eapply took_bind; [apply took_field; lia|]; intros x m _; apply took_ret; split; [cbn [fst snd option_map]; now rewrite K|reflexivity].
Qed.
Lemma took_any {A} (r : reader A) (P : A -> nat -> Prop) : rlocal r -> (forall x n, P x n) -> took P r.
Proof. intros L H. apply took_weaken with (P := fun _ _ => True); [auto|now apply local_took]. Qed.
Lemma mr_read_shape : took mr_shape mr_read.
Proof.
  unfold mr_read.
  eapply took_bind; [apply took_field; lia|]. intros ty n0 [H0 _].
  eapply took_bind; [apply took_assert|]. intros [] n1 [H1 _].
  eapply took_bind; [apply took_flag|]. intros fill n2 H2. cbn beta in H2.
  eapply took_bind; [apply took_field; lia|]. intros pog n3 [H3 _].
  eapply took_bind; [apply took_field; lia|]. intros enc n4 [H4 _].
  eapply took_bind; [apply took_flag|]. intros raf n5 H5. cbn beta in H5.
  eapply took_bind; [apply took_field; lia|]. intros len n6 [H6 _].
  eapply took_bind; [apply took_field; lia|]. intros at_ n7 [H7 _].
  apply took_if; intros _.
  { apply took_ret. split; [reflexivity|]. intros _. split; [subst; reflexivity|]. split; reflexivity. }
  eapply took_bind; [apply took_mr_addr|]. intros x n8 [A1 A2].
  eapply took_bind; [apply (took_any _ (fun _ _ => True)); [apply local_opt_flag, local_field; lia|auto]|]. intros pc n9 _.
  eapply took_bind; [apply (took_any _ (fun _ _ => True)); [apply local_opt_flag, sg_local|auto]|]. intros sg n10 _.
  eapply took_bind; [apply (took_any _ (fun _ _ => True)); [apply local_opt_flag, ca_local|auto]|]. intros ca n11 _.
  apply took_ret. split; [exact A1|]. unfold mr_is_null. cbn [mr_addr mr_el mr_um]. rewrite A2. discriminate.
Qed.
Lemma mr_ok b p h : wf b -> parse mr_read (remaining b) = Some (p, h) -> h <= length (remaining b) /\ mr_read b = Ok (p, adv b h) /\ mr_shape p h.
Proof.
  intros W E. destruct (parse_ok mr_read b p h mr_local W E) as (Hh & R). split; [exact Hh|]. split; [exact R|].
  destruct (mr_read_shape b p _ W R) as (n & Hn & EA & Sh). assert (n = h) by (unfold adv, set_pos in EA; injection EA as EA; lia). now subst n.
Qed.
Lemma header_addr p n : mr_shape p n -> mr_addr (header p) = mr_addr p.
Proof. intros [H _]. exact H. Qed.

(** * The body of a PDU *)
Lemma body_sdu fill h ext l d : h <= ext -> padded fill h ext l = true -> body fill h ext l = Some d -> d = sdu_of fill h ext l /\ ext <= length l.
Proof.
  intros H P B. unfold body in B. destruct (Nat.leb_spec ext (length l)) as [L|L]; [|discriminate B]. injection B as <-. split; [|exact L].
  unfold sdu_of, unfill, padded in *. destruct (Nat.ltb_spec ext h); [lia|]. destruct fill; [|reflexivity]. cbn [negb orb andb] in *. now rewrite P.
Qed.
Lemma cut_next b h len : wf b -> bpos b = bstart b -> h <= len -> len <= length (remaining b) -> 0 < len -> forall fill,
  exists nf c, cut_pdu fill len (adv b h) = Ok (nf, len - nf, c) /\ wf c /\ remaining c = sdu_of fill h len (remaining b) /\ bstart c = bstart b /\
    forall m, m <= length (remaining c) -> exists d, next_pdu (bend b) (len - nf + nf) (adv c m) = Ok d /\ wf d /\ bpos d = bstart d /\ bstart d = bstart b + len /\ remaining d = skipn len (remaining b).
Proof.
  intros W P H1 H2 H3 fill. destruct (cut_spec fill len h b W P H1 H2) as (nf & E & Hnf & R & Wc).
  eexists nf, _. split; [exact E|]. split; [exact Wc|]. split; [exact R|]. split; [reflexivity|].
  intros m Hm. assert (Wd : wf (adv (set_end (adv b h) (bstart b + (len - nf))) m)) by now apply wf_adv.
  assert (EE : bpos (adv (set_end (adv b h) (bstart b + (len - nf))) m) <= bend b).
  { destruct Wd as (_ & X & _). unfold adv, set_pos, set_end in X |- *. cbn [bpos bend] in X |- *. rewrite remaining_length in H2. pose proof W as (Y1 & Y2 & _). lia. }
  destruct (next_spec b (adv (set_end (adv b h) (bstart b + (len - nf))) m) len (len - nf + nf) W P eq_refl eq_refl eq_refl Wd EE ltac:(lia) H2) as (d & X & Wx & Px & Sx & Rx & _). eauto 10.
Qed.

Lemma upd_upd {A} (l : list A) i x y : upd (upd l i x) i y = upd l i y.
Proof. revert i; induction l as [|h t IH]; intros [|i]; cbn [upd]; f_equal; auto. Qed.

(** * What is kept of a message in progress *)
Definition keeps (y : df_buf) (part : option (mac_resource * list bool)) : Prop :=
  match part with
  | None => (df_is_inactive (df_st y) = true -> y = df_new) /\ df_aie y = false
  | Some (h, a) => df_st y = DfActive /\ mr_addr h = Some (df_addr y) /\ df_aie y = false /\ holds (df_bits y) a
  end.
Definition ix (t : tdma_time) : nat := ts_of t - 1.
Lemma ix_ok t : vtime t -> ts_index t = Ok (ix t) /\ ix t < 4.
Proof. intros V. rewrite ts_index_ok by assumption. unfold ix, ts_of. destruct V as (V & _). split; [f_equal|]; lia. Qed.
Lemma get_ok (d : ms_defrag) i : i < length d -> msd_get d i = Ok (nth i d df_new).
Proof. intros H. unfold msd_get. rewrite (nth_error_nth' d df_new H). reflexivity. Qed.
Lemma first_ok t d src a h : vtime t -> length d = 4 -> wf src -> keeps (nth (ix t) d df_new) None -> mr_addr h = Some a ->
  exists x, msd_first src t a d = Ok (upd d (ix t) x, adv src (length (remaining src))) /\ keeps x (Some (h, remaining src)).
Proof.
  intros V L W K A. destruct (ix_ok t V) as [EI HI]. unfold msd_first. rewrite EI. cbn [bind]. rewrite get_ok by lia. cbn [bind].
  assert (EB : (if df_is_inactive (df_st (nth (ix t) d df_new)) then nth (ix t) d df_new else df_new) = df_new) by (destruct K as [K _]; destruct (df_is_inactive _); auto). rewrite EB. cbn [df_st df_new df_is_inactive df_bits]. rewrite len_rem by assumption. cbn [bind].
  destruct (holds_copy _ _ src holds_new W) as (b' & E & H). rewrite E. cbn [bind]. eexists. split; [reflexivity|].
  cbn [keeps df_st df_addr df_aie df_bits]. auto.
Qed.
Lemma more_ok st t d src h a : vtime t -> length d = 4 -> wf src -> keeps (nth (ix t) d df_new) (Some (h, a)) -> length (a ++ remaining src) <= Pos.to_nat 4096 ->
  exists x, msd_more st src t d = Ok (upd d (ix t) x, adv src (length (remaining src))) /\
    df_st x = st /\ mr_addr h = Some (df_addr x) /\ df_aie x = false /\ holds (df_bits x) (a ++ remaining src).
Proof.
  intros V L W (K1 & K2 & K3 & K4) Z. destruct (ix_ok t V) as [EI HI]. unfold msd_more. rewrite EI. cbn [bind]. rewrite get_ok by lia. cbn [bind].
  rewrite K1. cbn [df_is_active negb]. rewrite (holds_len _ _ K4), len_rem by assumption. cbn [bind]. rewrite app_length in Z.
  destruct (N.ltb_spec DEFRAG_BUF_MAX_LEN (N.of_nat (length a + length (remaining src)))) as [H|H]; [unfold DEFRAG_BUF_MAX_LEN in H; lia|].
  destruct (holds_copy _ _ src K4 W) as (b' & E & HH). rewrite E. cbn [bind]. eexists. split; [reflexivity|]. cbn [df_st df_addr df_aie df_bits]. auto.
Qed.
Lemma aie_ok t d part : vtime t -> length d = 4 -> keeps (nth (ix t) d df_new) part -> msd_aie t d = Ok false.
Proof.
  intros V L K. destruct (ix_ok t V) as [EI HI]. unfold msd_aie. rewrite EI. cbn [bind]. rewrite get_ok by lia. cbn [bind].
  destruct part as [[h a]|]; cbn [keeps] in K; [destruct K as (_ & _ & -> & _); reflexivity|]. destruct K as [_ ->]. reflexivity.
Qed.
Lemma take_ok t d x bits : vtime t -> length d = 4 -> df_st x = DfComplete -> holds (df_bits x) bits ->
  exists f, msd_take t (upd d (ix t) x) = Ok (Some f, upd d (ix t) df_new) /\ df_addr f = df_addr x /\ wf (df_bits f) /\ remaining (df_bits f) = bits.
Proof.
  intros V L C (W & A & S & P & X). destruct (ix_ok t V) as [EI HI]. unfold msd_take. rewrite EI. cbn [bind]. rewrite get_ok by (rewrite upd_length; lia). cbn [bind].
  rewrite nth_upd, Nat.eqb_refl, L. destruct (Nat.ltb_spec (ix t) 4) as [_|G]; [|lia]. cbn [andb]. rewrite C.
  pose proof W as (W1 & W2 & W3 & W4). unfold set_raw_end. rewrite P.
  destruct (Nat.leb_spec (bend (df_bits x)) (cap (df_bits x))) as [_|G]; [|lia]. destruct (Nat.leb_spec (bstart (df_bits x)) (bend (df_bits x))) as [_|G]; [|lia]. rewrite Nat.leb_refl. cbn [assert bind].
  unfold seek. cbn [bstart bend set_end]. destruct (Nat.leb_spec (bstart (df_bits x) + 0) (bend (df_bits x))) as [_|G]; [|lia]. cbn [assert bind].
  rewrite upd_upd. eexists. split; [reflexivity|]. cbn [df_addr df_bits]. split; [reflexivity|].
  split; [unfold wf, set_pos, set_end, cap in *; cbn [bstart bpos bend bytes] in *; repeat split; try assumption; lia|].
  rewrite <- X. unfold remaining, window, set_pos, set_end. cbn [bytes bpos bend]. now rewrite Nat.add_0_r.
Qed.

Definition sdu_at (t : tdma_time) (o : ms_out) : Prop := match o with MoSdu t' _ _ _ _ => t' = t | _ => False end.
(** * One PDU *)
Lemma clip n len : len <= n -> (if n <? len then n else len) = len.
Proof. intros H. destruct (Nat.ltb_spec n len); [lia|reflexivity]. Qed.
Lemma null_ok i d b p h : wf b -> bpos b = bstart b -> 16 <= length (remaining b) -> parse mr_read (remaining b) = Some (p, h) -> mr_is_null p = true -> mr_len p = 2%N ->
  exists b', ms_resource i d b = Ok (d, b', []) /\ wf b' /\ bstart b' = bstart b.
Proof.
  intros W P L E N EL. destruct (mr_ok b p h W E) as (Hh & R & Sh & NS). destruct (NS N) as (-> & Fi & Ad). unfold ms_resource.
  rewrite start_pos by assumption. cbn [bind Nat.eqb assert]. rewrite R, adv_len, EL, Fi, Ad by assumption. cbn [bind N.leb N.ltb N.compare Pos.compare Pos.compare_cont andb]. change (N.to_nat 2 * 8) with 16. rewrite clip by assumption.
  destruct (cut_next b 16 16 W P ltac:(lia) L ltac:(lia) false) as (nf & c & -> & Wc & _ & Sc & _). cbn [bind]. exists c. auto.
Qed.
Lemma whole_ok i d b p h ext dd a : wf b -> bpos b = bstart b -> parse mr_read (remaining b) = Some (p, h) -> mr_is_null p = false ->
  length_whole (mr_len p) = true -> ext = N.to_nat (8 * mr_len p) -> h <= ext -> padded (mr_fill p) h ext (remaining b) = true -> body (mr_fill p) h ext (remaining b) = Some dd ->
  mr_addr p = Some a -> mr_encmode p = 0%N ->
  exists out b', ms_resource i d b = Ok (d, b', out) /\ wf b' /\ bpos b' = bstart b' /\ bstart b' = bstart b + ext /\ remaining b' = skipn ext (remaining b) /\ handed out [(header p, dd)] /\
    Forall (sdu_at (mi_time i)) out.
Proof.
  intros W P E N LW -> HE PA B Ad En. destruct (mr_ok b p h W E) as (Hh & R & Sh). destruct (body_sdu _ _ _ _ _ HE PA B) as (-> & LE).
  unfold length_whole in LW. apply andb_true_iff in LW. destruct LW as [L1 L2]. apply N.leb_le in L1, L2. unfold ms_resource.
  rewrite start_pos by assumption. cbn [bind Nat.eqb assert]. rewrite R, adv_len by assumption. cbn [bind].
  destruct (N.leb_spec 1 (mr_len p)) as [_|G]; [|lia]. destruct (N.ltb_spec (mr_len p) 58) as [_|G]; [|lia]. cbn [andb bind].
  replace (N.to_nat (mr_len p) * 8) with (N.to_nat (8 * mr_len p)) by lia. rewrite clip by assumption. rewrite Ad, En.
  destruct (cut_next b h _ W P HE LE ltac:(lia) (mr_fill p)) as (nf & c & -> & Wc & Rc & Sc & NX). cbn [bind N.ltb N.compare].
  destruct (N.eqb_spec (mr_len p) 63) as [G|_]; [lia|]. destruct (N.eqb_spec (mr_len p) 62) as [G|_]; [lia|]. rewrite len_rem by assumption. cbn [bind]. rewrite Rc.
  destruct (sdu_of (mr_fill p) h (N.to_nat (8 * mr_len p)) (remaining b)) as [|x l] eqn:ES; cbn [length Nat.eqb bind].
  - destruct (NX 0 ltac:(lia)) as (b' & EN & Wb & Pb & Sb & Rb). rewrite adv_0 in EN. change (bend (adv b h)) with (bend b). rewrite EN. cbn [bind].
    exists [], b'. split; [reflexivity|]. split; [exact Wb|]. split; [exact Pb|]. split; [exact Sb|]. split; [exact Rb|]. split; [apply handed_empty, handed_none|constructor].
  - destruct (from_bitbuffer_pos_spec c Wc) as (sdu & EC & Wd & Pd & _ & Xd). rewrite EC. cbn [bind].
    destruct (NX 0 ltac:(lia)) as (b' & EN & Wb & Pb & Sb & Rb). rewrite adv_0 in EN. change (bend (adv b h)) with (bend b). rewrite EN. cbn [bind].
    eexists _, b'. split; [reflexivity|]. split; [exact Wb|]. split; [exact Pb|]. split; [exact Sb|]. split; [exact Rb|]. split; [|constructor; [reflexivity|constructor]].
    apply handed_one; [|apply handed_none]. unfold gives. cbn [fst snd]. rewrite (header_addr _ _ Sh), Ad.
    eexists _, _, _, _. split; [reflexivity|]. split; [exact Wd|]. split; [|reflexivity]. rewrite <- Rc, <- Xd. unfold remaining, window. now rewrite Pd.
Qed.
Lemma start_ok i d b p h dd a : wf b -> bpos b = bstart b -> 0 < length (remaining b) -> parse mr_read (remaining b) = Some (p, h) -> mr_is_null p = false ->
  mr_len p = 63%N -> padded (mr_fill p) h (length (remaining b)) (remaining b) = true -> body (mr_fill p) h (length (remaining b)) (remaining b) = Some dd ->
  mr_addr p = Some a -> mr_encmode p = 0%N -> vtime (mi_time i) -> length d = 4 -> keeps (nth (ix (mi_time i)) d df_new) None ->
  exists x b', ms_resource i d b = Ok (upd d (ix (mi_time i)) x, b', []) /\ wf b' /\ length (window b') = 0 /\ keeps x (Some (header p, dd)).
Proof.
  intros W P L E N EL PA B Ad En V Ld K. destruct (mr_ok b p h W E) as (Hh & R & Sh). destruct (body_sdu _ _ _ _ _ Hh PA B) as (-> & LE).
  unfold ms_resource. rewrite start_pos by assumption. cbn [bind Nat.eqb assert]. rewrite R, adv_len, EL by assumption. cbn [bind N.leb N.ltb N.eqb Pos.eqb N.compare Pos.compare Pos.compare_cont andb orb].
  rewrite clip by lia. rewrite Ad, En.
  destruct (cut_next b h _ W P Hh (le_n _) L (mr_fill p)) as (nf & c & -> & Wc & Rc & Sc & NX). cbn [bind N.ltb N.compare].
  destruct (first_ok (mi_time i) d c a (header p) V Ld Wc K) as (x & EF & KX); [rewrite (header_addr _ _ Sh); exact Ad|]. rewrite EF. cbn [bind].
  destruct (NX _ (le_n _)) as (b' & EN & Wb & Pb & Sb & Rb). change (bend (adv b h)) with (bend b). rewrite EN. cbn [bind].
  exists x, b'. split; [reflexivity|]. split; [exact Wb|]. split; [|now rewrite <- Rc].
  assert (EW : window b' = remaining b') by (unfold window, remaining; now rewrite Pb). rewrite EW, Rb, skipn_length. lia.
Qed.
Lemma frag_ok i d b fill h dd hd a : wf b -> bpos b = bstart b -> 0 < length (remaining b) -> parse mfrag_read (remaining b) = Some (fill, h) ->
  padded fill h (length (remaining b)) (remaining b) = true -> body fill h (length (remaining b)) (remaining b) = Some dd ->
  vtime (mi_time i) -> length d = 4 -> keeps (nth (ix (mi_time i)) d df_new) (Some (hd, a)) -> length (a ++ dd) <= Pos.to_nat 4096 ->
  exists x b', ms_frag i d b = Ok (upd d (ix (mi_time i)) x, b', []) /\ wf b' /\ bstart b' = bstart b /\ keeps x (Some (hd, a ++ dd)).
Proof.
  intros W P L E PA B V Ld K Z. destruct (parse_ok mfrag_read b fill h mfrag_local W E) as (Hh & R). destruct (body_sdu _ _ _ _ _ Hh PA B) as (-> & LE).
  unfold ms_frag. rewrite start_pos by assumption. cbn [bind Nat.eqb assert]. rewrite R, adv_len by assumption. cbn [bind].
  destruct (cut_next b h _ W P Hh (le_n _) L fill) as (nf & c & -> & Wc & Rc & Sc & NX). cbn [bind].
  rewrite (aie_ok _ _ _ V Ld K). cbn [bind]. rewrite <- Rc in Z |- *.
  destruct (more_ok DfActive (mi_time i) d c hd a V Ld Wc K Z) as (x & EF & KX). rewrite EF. cbn [bind].
  eexists x, _. split; [reflexivity|]. split; [now apply wf_adv|]. split; [exact Sc|exact KX].
Qed.
Lemma end_ok i d b p h ext dd hd a : wf b -> bpos b = bstart b -> parse mend_read (remaining b) = Some (p, h) ->
  (1 <= me_len p)%N -> ext = N.to_nat (8 * me_len p) -> h <= ext -> padded (me_fill p) h ext (remaining b) = true -> body (me_fill p) h ext (remaining b) = Some dd ->
  vtime (mi_time i) -> length d = 4 -> keeps (nth (ix (mi_time i)) d df_new) (Some (hd, a)) -> length (a ++ dd) <= Pos.to_nat 4096 ->
  exists out b', ms_end i d b = Ok (upd d (ix (mi_time i)) df_new, b', out) /\ wf b' /\ bpos b' = bstart b' /\ bstart b' = bstart b + ext /\ remaining b' = skipn ext (remaining b) /\
    handed out [(hd, a ++ dd)] /\ Forall (sdu_at (mi_time i)) out.
Proof.
  intros W P E L1 -> HE PA B V Ld K Z. destruct (parse_ok mend_read b p h mend_local W E) as (Hh & R). destruct (body_sdu _ _ _ _ _ HE PA B) as (-> & LE).
  unfold ms_end. rewrite start_pos by assumption. cbn [bind Nat.eqb assert]. rewrite R.
  destruct (N.eqb_spec (me_len p) 0) as [G|_]; [lia|]. cbn [negb assert bind].
  replace (N.to_nat (me_len p) * 8) with (N.to_nat (8 * me_len p)) by lia.
  destruct (cut_next b h _ W P HE LE ltac:(lia) (me_fill p)) as (nf & c & -> & Wc & Rc & Sc & NX). cbn [bind].
  rewrite (aie_ok _ _ _ V Ld K). cbn [bind negb assert]. rewrite <- Rc in Z |- *.
  destruct (more_ok DfComplete (mi_time i) d c hd a V Ld Wc K Z) as (x & EF & KX & KA & _ & KH). rewrite EF. cbn [bind].
  destruct (take_ok (mi_time i) d x _ V Ld KX KH) as (f & ET & FA & FW & FR). rewrite ET. cbn [bind].
  destruct (NX _ (le_n _)) as (b' & EN & Wb & Pb & Sb & Rb). change (bend (adv b h)) with (bend b). rewrite EN. cbn [bind].
  eexists _, b'. split; [reflexivity|]. split; [exact Wb|]. split; [exact Pb|]. split; [exact Sb|]. split; [exact Rb|]. split; [|constructor; [reflexivity|constructor]].
  apply handed_one; [|apply handed_none]. eexists _, _, _, _. split; [reflexivity|]. split; [exact FW|]. split; [exact FR|]. cbn [fst]. now rewrite FA.
Qed.

(** * One block *)
Definition all_take (e : ear) : Prop :=
  match e with Clear got part => Forall takeable got /\ match part with Some m => takeable m | None => True end | _ => False end.
Lemma take_shorter h a d : takeable (h, a ++ d) -> takeable (h, a).
Proof. intros (H1 & H2 & H3). cbn [fst snd] in *. rewrite app_length in H3. repeat split; cbn [fst snd]; auto. lia. Qed.
Lemma take_back1 e i : all_take (hear_item e i) -> all_take e.
Proof.
  destruct e as [got [[h' a]|]| |]; destruct i as [h d|h d|d|d]; cbn [hear_item all_take]; try tauto.
  - intros [F T]. apply Forall_app in F. tauto.
  - intros [F T]. split; [exact F|]. now apply take_shorter in T.
  - intros [F _]. apply Forall_app in F. destruct F as [F T]. split; [exact F|]. exact (take_shorter _ _ _ (Forall_inv T)).
  - intros [F T]. apply Forall_app in F. tauto.
Qed.
Lemma take_back is : forall e, all_take (fold_left hear_item is e) -> all_take e.
Proof. induction is as [|i is IH]; intros e H; [exact H|]. cbn [fold_left] in H. exact (take_back1 _ _ (IH _ H)). Qed.
Lemma upd_same {A} (l : list A) i x : i < length l -> upd l i (nth i l x) = l.
Proof. revert i; induction l as [|h t IH]; intros [|i] H; cbn [upd nth length] in *; try lia; f_equal; auto with arith. Qed.
Lemma handed_app o1 l1 o2 l2 : handed o1 l1 -> handed o2 l2 -> handed (o1 ++ o2) (l1 ++ l2).
Proof. induction 1; intros H2; cbn [app]; auto; constructor; auto. Qed.
Lemma pdu_kind i x y z d b : ms_pdu i (bits_val [x; y; z]) d b =
  match x, y, z with
  | false, false, _ => ms_resource i d b
  | false, true, false => ms_frag i d b
  | false, true, true => ms_end i d b
  | true, false, _ => ms_broadcast i d b
  | true, true, _ => Panic
  end.
Proof. destruct x, y, z; reflexivity. Qed.
Lemma items_few st n l : length l < 16 -> items st n l = Some [].
Proof. intros H. destruct n; [reflexivity|]. cbn [items]. destruct (Nat.ltb_spec (length l) 16); [reflexivity|lia]. Qed.
Lemma whole_few n l : length l < 16 -> headers_whole n l = true.
Proof. intros H. destruct n; [reflexivity|]. cbn [headers_whole]. destruct (Nat.ltb_spec (length l) 16); [reflexivity|lia]. Qed.

Lemma hear_whole got part h d : hear_item (Clear got part) (IWhole h d) = Clear (got ++ [(h, d)]) part.
Proof. now destruct part as [[? ?]|]. Qed.

Definition sch_result (i : ms_ind) (d : ms_defrag) (r : res (ms_defrag * list ms_out)) (got : list (mac_resource * list bool)) (e : ear) : Prop :=
  exists x out new part, r = Ok (upd d (ix (mi_time i)) x, out) /\ e = Clear (got ++ new) part /\ handed out new /\ keeps x part /\ Forall (sdu_at (mi_time i)) out.
Section Block.
Variable i : ms_ind.
Hypothesis V : vtime (mi_time i).
Let k := ix (mi_time i).
Definition sch_claim (fuel : nat) : Prop := forall n b d got part is, wf b -> bpos b = bstart b -> 16 <= length (remaining b) -> length (remaining b) < fuel -> length (remaining b) <= n ->
  items true n (remaining b) = Some is -> headers_whole n (remaining b) = true -> all_take (fold_left hear_item is (Clear got part)) ->
  length d = 4 -> keeps (nth k d df_new) part -> sch_result i d (ms_sch fuel i d b) got (fold_left hear_item is (Clear got part)).
(** what follows a PDU that says its length *)
Lemma go_on fuel : sch_claim fuel -> forall n b b1 d y out1 got m part is ext, wf b1 -> bpos b1 = bstart b1 -> bstart b1 = bstart b + ext -> 0 < ext -> ext <= length (remaining b) ->
  remaining b1 = skipn ext (remaining b) -> length (remaining b) < S fuel -> length (remaining b) <= S n ->
  items true n (skipn ext (remaining b)) = Some is -> headers_whole n (skipn ext (remaining b)) = true -> all_take (fold_left hear_item is (Clear (got ++ [m]) part)) ->
  length d = 4 -> keeps y part -> handed out1 [m] -> Forall (sdu_at (mi_time i)) out1 ->
  sch_result i d (n <- get_len b1 ;;
      if negb (bstart b1 =? bstart b)%nat && (16 <=? n)%nat then
        ' (d, out') <- ms_sch fuel i (upd d k y) b1 ;; Ok (d, out1 ++ out')
      else Ok (upd d k y, out1)) got (fold_left hear_item is (Clear (got ++ [m]) part)).
Proof.
  intros IH n b b1 d y out1 got m part is ext W P S0 H0 H1 R F1 F2 I1 I2 T L K Hd Ht.
  rewrite win_len by assumption. cbn [bind]. assert (EW : window b1 = remaining b1) by (unfold window, remaining; now rewrite P). rewrite EW.
  destruct (Nat.eqb_spec (bstart b1) (bstart b)) as [G|_]; [lia|]. cbn [negb andb].
  assert (HK : k < 4) by (unfold k; apply (ix_ok _ V)).
  assert (LR : length (remaining b1) = length (remaining b) - ext) by (rewrite R; apply skipn_length).
  destruct (Nat.leb_spec 16 (length (remaining b1))) as [H16|H16].
  - rewrite <- R in I1, I2.
    destruct (IH n b1 (upd d k y) (got ++ [m]) part is W P H16 ltac:(lia) ltac:(lia) I1 I2 T) as (x & out & new & part' & E1 & E2 & E3 & E4 & E5);
      [now rewrite upd_length| rewrite nth_upd, Nat.eqb_refl, L; destruct (Nat.ltb_spec k 4); [exact K|lia] |].
    rewrite E1. cbn [bind]. fold k. rewrite upd_upd. exists x, (out1 ++ out), (m :: new), part'. split; [reflexivity|]. split; [rewrite E2, <- app_assoc; reflexivity|].
    split; [exact (handed_app _ [m] _ _ Hd E3)|]. split; [exact E4|]. apply Forall_app. auto.
  - rewrite <- R in I1. rewrite items_few in I1 by lia. injection I1 as <-. cbn [fold_left].
    exists y, out1, [m], part. auto.
Qed.
Lemma no_more b b1 (X : ms_defrag) fuel out : wf b1 -> bstart b1 = bstart b \/ length (window b1) = 0 ->
  (n <- get_len b1 ;; if negb (bstart b1 =? bstart b)%nat && (16 <=? n)%nat then ' (d, out') <- ms_sch fuel i X b1 ;; Ok (d, out ++ out') else Ok (X, out)) = Ok (X, out).
Proof.
  intros W H. rewrite win_len by assumption. cbn [bind]. destruct H as [H|H]; rewrite H; [rewrite Nat.eqb_refl; reflexivity|]. now rewrite andb_false_r.
Qed.
Lemma sch_ok fuel : sch_claim fuel.
Proof.
  induction fuel as [|fuel IH]; intros n b d got part is W P L16 F1 F2 I1 I2 T L K; [lia|]. cbn [ms_sch].
  assert (HK : k < length d) by (rewrite L; unfold k; apply (ix_ok _ V)).
  rewrite peek_bits_spec by (assumption || lia). cbn [bind]. destruct (Nat.leb_spec 3 (length (remaining b))) as [_|G]; [|lia].
  assert (ER : exists x y z rest, remaining b = x :: y :: z :: rest).
  { destruct (remaining b) as [|x [|y [|z rest]]]; cbn [length] in L16; try lia. eauto. }
  destruct ER as (x & y & z & rest & ER). replace (firstn 3 (remaining b)) with [x; y; z] by now rewrite ER. rewrite pdu_kind.
  destruct n as [|n]; [lia|]. cbn [items headers_whole] in I1, I2. destruct (Nat.ltb_spec (length (remaining b)) 16) as [G|_]; [lia|].
  assert (BY : exists l, l = remaining b) by eauto. destruct BY as (l & EL). rewrite <- EL in I1, I2. rewrite <- EL in ER.
  destruct x; [destruct y; rewrite ER in I1; discriminate I1|].
  destruct y.
  - destruct z.
    + (* MAC-END *) assert (I1' : match parse mend_read l with
          | Some (p, h) => check true ((1 <=? me_len p)%N && padded (me_fill p) h (N.to_nat (8 * me_len p)) l)
                match body (me_fill p) h (N.to_nat (8 * me_len p)) l with
                | Some d => option_map (cons (IEnd d)) (items true n (skipn (N.to_nat (8 * me_len p)) l)) | None => None end
          | None => None end = Some is) by (rewrite ER in I1 |- *; exact I1).
      assert (I2' : match parse mend_read l with
          | Some (p, h) => (h <=? N.to_nat (8 * me_len p)) && headers_whole n (skipn (N.to_nat (8 * me_len p)) l)
          | None => true end = true) by (rewrite ER in I2 |- *; exact I2).
      clear I1 I2. destruct (parse mend_read l) as [[p h]|] eqn:EP; [|discriminate I1'].
      unfold check in I1'. cbn [negb orb] in I1'. destruct (N.leb_spec 1 (me_len p)) as [L1|]; [|discriminate I1']. cbn [andb] in I1'.
      destruct (padded (me_fill p) h (N.to_nat (8 * me_len p)) l) eqn:EPa; [|discriminate I1'].
      destruct (body (me_fill p) h (N.to_nat (8 * me_len p)) l) as [dd|] eqn:EB; [|discriminate I1'].
      destruct (items true n (skipn (N.to_nat (8 * me_len p)) l)) as [is'|] eqn:EI; [|discriminate I1']. injection I1' as <-.
      apply andb_true_iff in I2'. destruct I2' as [HE I2]. apply Nat.leb_le in HE.
      cbn [fold_left hear_item] in T |- *. destruct part as [[hd a]|]; [|apply take_back in T; contradiction T].
      assert (Z : length (a ++ dd) <= Pos.to_nat 4096).
      { apply take_back in T. cbn [all_take] in T. destruct T as [T _]. apply Forall_app in T. destruct T as [_ T]. apply Forall_inv in T. apply T. }
      rewrite EL in *. destruct (end_ok i d b p h _ dd hd a W P EP L1 eq_refl HE EPa EB V L K Z) as (out1 & b1 & E1 & W1 & P1 & S1 & R1 & H1 & T1). rewrite E1. cbn [bind].
      destruct (body_sdu _ _ _ _ _ HE EPa EB) as [_ LE].
      apply (go_on fuel IH n b b1 d df_new out1 got (hd, a ++ dd) None is' (N.to_nat (8 * me_len p))); auto; try lia. cbn [keeps]. split; reflexivity.
    + (* MAC-FRAG *) assert (I1' : match parse mfrag_read l with
          | Some (fill, h) => check true (padded fill h (length l) l) (option_map (fun d => [IMore d]) (body fill h (length l) l)) | None => None end = Some is) by (rewrite ER in I1 |- *; exact I1).
      clear I1 I2. destruct (parse mfrag_read l) as [[fill h]|] eqn:EP; [|discriminate I1'].
      unfold check in I1'. cbn [negb orb] in I1'. destruct (padded fill h (length l) l) eqn:EPa; [|discriminate I1'].
      destruct (body fill h (length l) l) as [dd|] eqn:EB; [|discriminate I1']. injection I1' as <-.
      cbn [fold_left hear_item] in T |- *. destruct part as [[hd a]|]; [|contradiction T]. cbn [all_take] in T. destruct T as [_ (_ & _ & Z)]. cbn [snd] in Z.
      rewrite EL in *. destruct (frag_ok i d b fill h dd hd a W P ltac:(lia) EP EPa EB V L K Z) as (x & b1 & E1 & W1 & S1 & K1). rewrite E1. cbn [bind].
      rewrite no_more by auto. exists x, [], [], (Some (hd, a ++ dd)). rewrite app_nil_r. split; [reflexivity|]. split; [reflexivity|]. split; [constructor|]. split; [exact K1|constructor].
  - (* MAC-RESOURCE *)
    assert (I1' : match parse mr_read l with
          | Some (p, h) =>
              if mr_is_null p then check true (mr_len p =? 2)%N (Some [])
              else if (mr_len p =? 63)%N then check true (padded (mr_fill p) h (length l) l) (option_map (fun d => [IStart (header p) d]) (body (mr_fill p) h (length l) l))
              else check true (length_whole (mr_len p) && padded (mr_fill p) h (N.to_nat (8 * mr_len p)) l)
                     match body (mr_fill p) h (N.to_nat (8 * mr_len p)) l with
                     | Some d => option_map (cons (IWhole (header p) d)) (items true n (skipn (N.to_nat (8 * mr_len p)) l)) | None => None end
          | None => None end = Some is) by (rewrite ER in I1 |- *; exact I1).
    assert (I2' : match parse mr_read l with
          | Some (p, h) => if mr_is_null p || (mr_len p =? 63)%N then true
                           else (h <=? N.to_nat (8 * mr_len p)) && headers_whole n (skipn (N.to_nat (8 * mr_len p)) l)
          | None => true end = true) by (rewrite ER in I2 |- *; exact I2).
    clear I1 I2. destruct (parse mr_read l) as [[p h]|] eqn:EP; [|discriminate I1'].
    assert (Sh : mr_shape p h) by (rewrite EL in EP; exact (proj2 (proj2 (mr_ok b p h W EP)))).
    unfold check in I1'. cbn [negb orb] in I1'. destruct (mr_is_null p) eqn:EN.
    + destruct (N.eqb_spec (mr_len p) 2) as [E2|]; [|discriminate I1']. injection I1' as <-. cbn [fold_left].
      rewrite EL in *. destruct (null_ok i d b p h W P L16 EP EN E2) as (b1 & E1 & W1 & S1). rewrite E1. cbn [bind]. rewrite no_more by auto.
      exists (nth k d df_new), [], [], part. fold k. rewrite upd_same by assumption. rewrite app_nil_r. split; [reflexivity|]. split; [reflexivity|]. split; [constructor|]. split; [exact K|constructor].
    + cbn [orb] in I2'. destruct (N.eqb_spec (mr_len p) 63) as [E63|N63].
      * destruct (padded (mr_fill p) h (length l) l) eqn:EPa; [|discriminate I1']. destruct (body (mr_fill p) h (length l) l) as [dd|] eqn:EB; [|discriminate I1']. injection I1' as <-.
        cbn [fold_left hear_item] in T |- *. destruct part as [[hd a]|]; [contradiction T|]. cbn [all_take] in T. destruct T as [_ (TA & TE & _)]. cbn [fst] in TA, TE.
        rewrite (header_addr _ _ Sh) in TA. destruct (mr_addr p) as [a|] eqn:Ad; [|congruence].
        rewrite EL in *. destruct (start_ok i d b p h dd a W P ltac:(lia) EP EN E63 EPa EB Ad TE V L K) as (x & b1 & E1 & W1 & S1 & K1). rewrite E1. cbn [bind].
        rewrite no_more by auto. exists x, [], [], (Some (header p, dd)). rewrite app_nil_r. split; [reflexivity|]. split; [reflexivity|]. split; [constructor|]. split; [exact K1|constructor].
      * destruct (length_whole (mr_len p)) eqn:ELW; [|discriminate I1']. cbn [andb] in I1'.
        destruct (padded (mr_fill p) h (N.to_nat (8 * mr_len p)) l) eqn:EPa; [|discriminate I1'].
        destruct (body (mr_fill p) h (N.to_nat (8 * mr_len p)) l) as [dd|] eqn:EB; [|discriminate I1'].
        destruct (items true n (skipn (N.to_nat (8 * mr_len p)) l)) as [is'|] eqn:EI; [|discriminate I1']. injection I1' as <-.
        apply andb_true_iff in I2'. destruct I2' as [HE I2]. apply Nat.leb_le in HE.
        cbn [fold_left] in T |- *. rewrite hear_whole in T |- *.
        assert (TT : takeable (header p, dd)) by (apply take_back in T; cbn [all_take] in T; destruct T as [T _]; apply Forall_app in T; destruct T as [_ T]; exact (Forall_inv T)).
        destruct TT as (TA & TE & _). cbn [fst] in TA, TE. rewrite (header_addr _ _ Sh) in TA. destruct (mr_addr p) as [a|] eqn:Ad; [|congruence].
        rewrite EL in *. destruct (whole_ok i d b p h _ dd a W P EP EN ELW eq_refl HE EPa EB Ad TE) as (out1 & b1 & E1 & W1 & P1 & S1 & R1 & H1 & T1). rewrite E1. cbn [bind].
        destruct (body_sdu _ _ _ _ _ HE EPa EB) as [_ LE].
        unfold length_whole in ELW. apply andb_true_iff in ELW. destruct ELW as [L1 _]. apply N.leb_le in L1.
        assert (G := go_on fuel IH n b b1 d (nth k d df_new) out1 got (header p, dd) part is' (N.to_nat (8 * mr_len p)) W1 P1 S1 ltac:(lia) LE R1 F1 F2 EI I2 T L K H1 T1).
        rewrite upd_same in G by assumption. exact G.
Qed.
End Block.

(** * Histories *)
Definition ear_ok (e : ear) (y : df_buf) : Prop := match e with Clear _ part => keeps y part | _ => False end.
Definition stood (u : umac_ms) (E : nat -> ear) : Prop := length (ms_df u) = 4 /\ ms_cc u = None /\ forall k, 1 <= k <= 4 -> ear_ok (E k) (nth (k - 1) (ms_df u) df_new).
Lemma slot_back e l : all_take (hear_slot e l) -> all_take e.
Proof. destruct e as [got part| |]; cbn [hear_slot]; auto. destruct (slot_items l) as [is|]; [apply take_back|contradiction]. Qed.
Lemma slots_back ls : forall e, all_take (fold_left hear_slot ls e) -> all_take e.
Proof. induction ls as [|l ls IH]; intros e H; [exact H|]. exact (slot_back _ _ (IH _ H)). Qed.
Lemma sdus_app k a b : sdus_on k (a ++ b) = sdus_on k a ++ sdus_on k b.
Proof. apply filter_app. Qed.
Lemma sdus_all k t out : Forall (sdu_at t) out -> sdus_on k out = if on_ts k t then out else [].
Proof.
  induction 1 as [|o out H _ IH]; [now destruct (on_ts k t)|]. destruct o; try contradiction H. cbn [sdu_at] in H. subst. cbn [sdus_on filter]. fold (sdus_on k out). rewrite IH.
  now destruct (on_ts k t).
Qed.
Definition grown (e e' : ear) (new : list (mac_resource * list bool)) : Prop := match e, e' with Clear got _, Clear got' _ => got' = got ++ new | _, _ => False end.
Lemma grown_trans a b c l m : grown a b l -> grown b c m -> grown a c (l ++ m).
Proof. destruct a, b, c; cbn [grown]; try contradiction. intros -> ->. now rewrite app_assoc. Qed.

(** ** The other channels *)
Lemma aa_rsafe : rsafe aa_read.
Proof.
  unfold aa_read. apply rsafe_bind_field; [lia|]. intros h Hh. change (2 ^ N.of_nat 2)%N with 4%N in Hh. repeat (apply rsafe_bind_field; [lia|intros ? _]).
  destruct (N.eqb_spec h 0); [apply rsafe_ret|]. destruct (N.eqb_spec h 1); [apply rsafe_ret|]. destruct (N.eqb_spec h 2); [apply rsafe_ret|].
  destruct (N.eqb_spec h 3); [|lia]. apply rsafe_lift_bound; [apply ok_or_safe|]. intros. apply rsafe_ret.
Qed.
Lemma a18_rsafe x y : [x; y] <> [true; true] -> rsafe_at [x; y] a18_read.
Proof.
  intros H. assert (G : forall v, (v < 3)%N -> rsafe_at (bits_of 2 v ++ []) a18_read).
  { intros v Hv. unfold a18_read. apply rsafe_at_field; [lia|change (2 ^ N.of_nat 2)%N with 4%N; lia|]. apply rsafe_at_nil. repeat (apply rsafe_bind_field; [lia|intros ? _]).
    destruct (N.eqb_spec v 0); [apply rsafe_ret|]. destruct (N.eqb_spec v 1); [apply rsafe_ret|]. destruct (N.eqb_spec v 2); [apply rsafe_ret|]. lia. }
  destruct x, y; [congruence|exact (G 2%N ltac:(lia))|exact (G 1%N ltac:(lia))|exact (G 0%N ltac:(lia))].
Qed.
Lemma window_at b : bpos b = bstart b -> window b = remaining b.
Proof. intros P. unfold window, remaining. now rewrite P. Qed.
Lemma short_field {A} n b (k : N -> reader A) : wf b -> n <= 64 -> length (remaining b) < n -> exists e, rbind (rfield n) k b = Err e.
Proof.
  intros W Hn H. unfold rbind, rfield, read_field. rewrite read_bits_opt_spec by assumption. destruct (Nat.leb_spec n (length (remaining b))); [lia|]. cbn [bind]. eauto.
Qed.
Lemma aach_ok i b : wf b -> bpos b = bstart b -> (tm_f (mi_time i) = 18%Z -> firstn 2 (window b) <> [true; true]) -> exists out, ms_aach i b = Ok out /\ Forall (fun o => exists t c, o = MoTraffic t c) out.
Proof.
  intros W P H. unfold ms_aach. destruct (Z.eqb_spec (tm_f (mi_time i)) 18) as [F|F].
  - specialize (H F). rewrite window_at in H by assumption. assert (S : a18_read b <> Panic).
    { destruct (le_lt_dec 2 (length (remaining b))) as [L|L].
      - destruct (remaining b) as [|x [|y rest]] eqn:ER; cbn [length] in L; try lia. cbn [firstn] in H. pose proof (a18_rsafe x y H b rest W ER) as S. destruct (a18_read b) as [[? ?]| |]; congruence || contradiction.
      - unfold a18_read. destruct (short_field 2 b (fun h => f1 <~ rfield 6 ;; f2 <~ rfield 6 ;;
          if (h =? 0)%N then rret (mk_af18 UlCommonOnly (Some (af_of f1)) (Some (af_of f2)) None)
          else if (h =? 1)%N then rret (mk_af18 UlCommonAndAssigned (Some (af_of f1)) (Some (af_of f2)) None)
          else if (h =? 2)%N then rret (mk_af18 UlAssignedOnly (Some (af_of f1)) (Some (af_of f2)) None)
          else if (h =? 3)%N then
            u <~ rlift (ok_or (ul_from_um f1) EInvalidValue) ;; rassert (ul_is_traffic u) ;~
            rret (mk_af18 u None None (Some (af_of f2)))
          else rpanic) W ltac:(lia) L) as (e & E). rewrite E. discriminate. }
    destruct (a18_read b) as [[p c]|e|]; [| |congruence]; (eexists; split; [reflexivity|]); repeat constructor. eauto.
  - pose proof (aa_rsafe b W) as S. destruct (aa_read b) as [[p c]|e|]; [| |contradiction]; (eexists; split; [reflexivity|]); repeat constructor. eauto.
Qed.
Lemma sync_ok b : wf b -> sync_read b <> Panic.
Proof.
  intros W. assert (S : rsafe sync_read) by (unfold sync_read; repeat rsafe1). specialize (S b W). destruct (sync_read b) as [[? ?]| |]; congruence || contradiction.
Qed.
Lemma local_seek n : rlocal (rseek_rel (Z.of_nat n)).
Proof.
  intros b b' W W' E. unfold rseek_rel, seek_rel. pose proof W as (A1 & A2 & A3 & A4). pose proof W' as (B1 & B2 & B3 & B4).
  pose proof (f_equal (@length bool) E) as L. rewrite !remaining_length in L.
  destruct (Z.leb_spec (Z.of_nat (bstart b)) (Z.of_nat (bpos b) + Z.of_nat n)); [|lia]. destruct (Z.leb_spec (Z.of_nat (bstart b')) (Z.of_nat (bpos b') + Z.of_nat n)); [|lia]. cbn [andb].
  destruct (Z.leb_spec (Z.of_nat (bpos b) + Z.of_nat n) (Z.of_nat (bend b))), (Z.leb_spec (Z.of_nat (bpos b') + Z.of_nat n) (Z.of_nat (bend b'))); try lia; cbn [assert bind]; [|exact Logic.I].
  split; [reflexivity|]. exists n. rewrite remaining_length. split; [lia|]. unfold adv. split; f_equal; lia.
Qed.
Lemma si_local : rlocal si_read.
Proof.
  unfold si_read, aca_read, es_read. cbv zeta.
  repeat first [exact (local_seek 20)|progress local|match goal with |- rlocal (match ?p with _ => _ end) => destruct p end].
Qed.
(** The time is only set by a SYSINFO of another hyperframe. *)
Definition on_sch (i : ms_ind) : Prop := match mi_chan i with SchF | SchHd | Bnch => True | _ => False end.
Definition times (evs : list ms_event) (out : list ms_out) : Prop := forall t, In (MoTime t) out ->
  exists i b p n h, In (MeBlock i b) evs /\ on_sch i /\ says_broadcast (window b) = true /\ parse si_read (window b) = Some (p, n) /\ si_hyper p = Some h /\ Z.of_N h <> tm_h (mi_time i).
Lemma no_times evs (Q : ms_out -> Prop) out : (forall t, ~ Q (MoTime t)) -> Forall Q out -> times evs out.
Proof. intros H F t IN. rewrite Forall_forall in F. destruct (H t (F _ IN)). Qed.
Lemma bnch_ok i b fuel d : on_sch i -> wf b -> bpos b = bstart b -> firstn 4 (window b) = [true; false; false; false] -> parse si_read (window b) <> None ->
  exists out, ms_sch (S fuel) i d b = Ok (d, out) /\ times [MeBlock i b] out /\ Forall (fun o => match o with MoTime _ | MoSysinfo _ _ => True | _ => False end) out.
Proof.
  intros OS W P H1 H2. assert (WA : window b = remaining b) by now apply window_at. rewrite WA in H1, H2. destruct (parse si_read (remaining b)) as [[p n]|] eqn:EP; [|congruence]. clear H2.
  destruct (parse_ok si_read b p n si_local W EP) as (Hn & R).
  assert (ER : exists rest, remaining b = true :: false :: false :: false :: rest).
  { destruct (remaining b) as [|x [|y [|z [|w rest]]]]; try discriminate H1. cbn [firstn] in H1. injection H1 as -> -> -> ->. eauto. }
  destruct ER as (rest & ER). cbn [ms_sch]. rewrite peek_bits_spec by (assumption || lia). cbn [bind]. rewrite ER. cbn [length Nat.leb firstn]. rewrite pdu_kind.
  unfold ms_broadcast. rewrite peek_posoffset_spec by (assumption || lia). rewrite ER. cbn [length Nat.leb Nat.add skipn firstn bind unwrap]. change (bits_val [false; false] =? 0)%N with true. cbn [assert bind].
  rewrite R. destruct (from_bitbuffer_pos_spec (adv b n) (wf_adv _ _ W Hn)) as (sdu & E & _). rewrite E. cbn [bind].
  rewrite (no_more i b (adv b n) d fuel) by (auto using wf_adv). eexists. split; [reflexivity|]. split.
  - intros t' IN. apply in_app_or in IN. destruct IN as [IN|[IN|[]]]; [|discriminate IN]. exists i, b, p, n. destruct (si_hyper p) as [h|] eqn:EH; [|destruct IN]. exists h.
    destruct (Z.eqb_spec (Z.of_N h) (tm_h (mi_time i))) as [Q|Q]; [destruct IN|]. rewrite WA. split; [now left|]. split; [exact OS|]. split; [rewrite ER; reflexivity|]. split; [exact EP|]. now split.
  - apply Forall_app. split; [|repeat constructor]. destruct (si_hyper p) as [h|]; [|constructor]. destruct (_ =? _)%Z; repeat constructor.
Qed.

Lemma quiet_step e u out (Q : ms_out -> Prop) E : stood u E -> (forall k, signalling k e = []) -> (forall o k, Q o -> sdus_on k [o] = []) -> Forall Q out ->
  stood u (fun k => fold_left hear_slot (signalling k e) (E k)) /\ forall k, 1 <= k <= 4 -> exists new, grown (E k) (fold_left hear_slot (signalling k e) (E k)) new /\ handed (sdus_on k out) new.
Proof.
  intros (S1 & S2 & S3) H Z F. split.
  - split; [exact S1|]. split; [exact S2|]. intros k Hk. rewrite H. exact (S3 k Hk).
  - intros k Hk. exists []. rewrite H. cbn [fold_left]. specialize (S3 k Hk). split.
    + destruct (E k) as [got part| |]; try contradiction S3. cbn [grown]. now rewrite app_nil_r.
    + assert (EN : sdus_on k out = []); [|rewrite EN; constructor]. induction F as [|o l Ho _ IH]; [reflexivity|]. change (o :: l) with ([o] ++ l). now rewrite sdus_app, (Z o k Ho), IH.
Qed.
Lemma stood_df u E : stood u E -> stood (mk_ums (ms_df u) (ms_mcc u) (ms_mnc u) (ms_cc u) (ms_code u)) E.
Proof. intros H. exact H. Qed.
Lemma sig_block_ok i b u E : wf b -> bpos b = bstart b -> vtime (mi_time i) -> 16 <= length (window b) -> stood u E -> uncut (window b) -> all_take (hear_slot (E (ts_of (mi_time i))) (window b)) ->
  exists x out, ms_sch (S (bend b - bstart b)) i (ms_df u) b = Ok (upd (ms_df u) (ix (mi_time i)) x, out) /\ ear_ok (hear_slot (E (ts_of (mi_time i))) (window b)) x /\
    Forall (sdu_at (mi_time i)) out /\ exists new, grown (E (ts_of (mi_time i))) (hear_slot (E (ts_of (mi_time i))) (window b)) new /\ handed out new.
Proof.
  intros W P V L (S1 & S2 & S3) U T. rewrite window_at in * by assumption. pose proof (ts_of_range (mi_time i) V) as R. specialize (S3 _ R).
  destruct (E (ts_of (mi_time i))) as [got part| |] eqn:EE; try contradiction S3. cbn [hear_slot ear_ok] in *. unfold slot_items in *.
  destruct (items true (length (remaining b)) (remaining b)) as [is|] eqn:EI; [|contradiction T].
  pose proof (remaining_length b) as LR. pose proof W as (W1 & W2 & _).
  destruct (sch_ok i V (S (bend b - bstart b)) (length (remaining b)) b (ms_df u) got part is W P L ltac:(lia) (le_n _) EI U T S1 S3) as (x & out & new & part' & E1 & E2 & E3 & E4 & E5).
  exists x, out. split; [exact E1|]. rewrite E2. split; [exact E4|]. split; [exact E5|]. exists new. split; [reflexivity|exact E3].
Qed.
Lemma step_ok e u E : event_fine e -> stood u E -> (forall k, Forall uncut (signalling k e)) -> (forall k, 1 <= k <= 4 -> all_take (fold_left hear_slot (signalling k e) (E k))) ->
  exists u' out, ms_step e u = Ok (u', out) /\ times [e] out /\ stood u' (fun k => fold_left hear_slot (signalling k e) (E k)) /\
    forall k, 1 <= k <= 4 -> exists new, grown (E k) (fold_left hear_slot (signalling k e) (E k)) new /\ handed (sdus_on k out) new.
Proof.
  intros F St U T. destruct e as [i b|t addr].
  2:{ destruct addr as [[mcc mnc]|]; cbn [ms_step].
      - assert (St' : stood (mk_ums (ms_df u) (Some mcc) (Some mnc) (ms_cc u) (ms_code u)) E) by exact St.
        unfold ms_update. cbn [ms_mcc ms_mnc ms_cc]. rewrite (proj1 (proj2 St)). eexists _, []. split; [reflexivity|]. split; [intros ? []|]. rewrite (proj1 (proj2 St)) in St'. apply (quiet_step _ _ [] (fun _ => False) E St'); auto. contradiction.
      - exists u, []. split; [reflexivity|]. split; [intros ? []|]. apply (quiet_step _ _ [] (fun _ => False) E St); auto. contradiction. }
  destruct F as (W & P & V & F).
  assert (SCH : (mi_chan i = SchF \/ mi_chan i = SchHd) -> 16 <= length (window b) -> says_broadcast (window b) = false ->
    exists u' out, (' (d, out) <- ms_sch (S (bend b - bstart b)) i (ms_df u) b ;; Ok (mk_ums d (ms_mcc u) (ms_mnc u) (ms_cc u) (ms_code u), out)) = Ok (u', out) /\ times [MeBlock i b] out /\
      stood u' (fun k => fold_left hear_slot (signalling k (MeBlock i b)) (E k)) /\
      forall k, 1 <= k <= 4 -> exists new, grown (E k) (fold_left hear_slot (signalling k (MeBlock i b)) (E k)) new /\ handed (sdus_on k out) new).
  { intros C L NB. pose proof (ts_of_range (mi_time i) V) as R.
    assert (SG : forall k, signalling k (MeBlock i b) = if on_ts k (mi_time i) then [window b] else []) by (intros k; cbn [signalling]; rewrite NB, andb_true_r; destruct C as [-> | ->]; reflexivity).
    assert (ON : on_ts (ts_of (mi_time i)) (mi_time i) = true) by apply Nat.eqb_refl.
    pose proof (U (ts_of (mi_time i))) as U1. pose proof (T _ R) as T1. rewrite SG, ON in U1, T1. apply Forall_inv in U1. cbn [fold_left] in T1.
    destruct (sig_block_ok i b u E W P V L St U1 T1) as (x & out & E1 & K1 & Q1 & new & G1 & D1). rewrite E1. cbn [bind]. eexists _, out. split; [reflexivity|]. split; [apply (no_times _ _ out) with (2 := Q1); intros t' QQ; exact QQ|].
    destruct St as (S1 & S2 & S3). assert (HI : ix (mi_time i) < 4) by now apply (ix_ok _ V). split.
    - split; [cbn [ms_df]; now rewrite upd_length|]. split; [exact S2|]. intros k Hk. cbn [ms_df]. rewrite SG, nth_upd, S1. destruct (Nat.ltb_spec (ix (mi_time i)) 4); [|lia]. rewrite andb_true_r.
      unfold on_ts, ix. destruct (Nat.eqb_spec (ts_of (mi_time i)) k) as [<-|NE].
      + rewrite Nat.eqb_refl. exact K1.
      + destruct (Nat.eqb_spec (k - 1) (ts_of (mi_time i) - 1)); [lia|]. exact (S3 k Hk).
    - intros k Hk. rewrite SG, (sdus_all k _ _ Q1). unfold on_ts. destruct (Nat.eqb_spec (ts_of (mi_time i)) k) as [<-|NE].
      + exists new. split; [exact G1|exact D1].
      + exists []. split; [|constructor]. cbn [fold_left]. specialize (S3 k Hk). destruct (E k) as [got part| |]; try contradiction S3. cbn [grown]. now rewrite app_nil_r. }
  cbn [ms_step]. destruct (mi_chan i) eqn:C; try (match type of F with False => destruct F end).
  all: try (destruct (mi_blk i); try (match type of F with False => destruct F end)).
  all: lazymatch type of F with length _ = _ /\ _ => destruct F as [LF F]; destruct (says_broadcast (window b)) eqn:NB; [specialize (F eq_refl); clear LF|apply SCH; [auto|lia|reflexivity]] | _ => idtac end.
  all: clear SCH; assert (SG : forall k, signalling k (MeBlock i b) = []) by (intros k; cbn [signalling]; rewrite C; try rewrite NB; cbn [negb]; rewrite ?andb_false_r; reflexivity).
  all: first
    [ match type of F with _ -> _ => idtac end; destruct (aach_ok i b W P F) as (out & -> & Q); cbn [bind]; exists u, out; split; [reflexivity|]; split; [apply (no_times _ _ out) with (2 := Q); intros t' (? & ? & QQ); discriminate QQ|];
      apply (quiet_step _ _ out _ E St SG) with (2 := Q); intros o k (t & c & ->); reflexivity
    | match type of F with True => idtac end; pose proof (sync_ok b W) as NP; exists u, []; split; [destruct (sync_read b) as [[? ?]| |]; congruence|]; split; [intros ? []|];
      apply (quiet_step _ _ [] (fun _ => False) E St SG); [contradiction|constructor]
    | destruct F as [F1 F2]; assert (OS : on_sch i) by (unfold on_sch; rewrite C; exact Logic.I); destruct (bnch_ok i b (bend b - bstart b) (ms_df u) OS W P F1 F2) as (out & -> & TM & Q); cbn [bind]; eexists _, out; split; [reflexivity|]; split; [exact TM|];
      apply (quiet_step _ _ out _ E (stood_df u E St) SG) with (2 := Q); intros o k Ho; destruct o; try contradiction Ho; reflexivity ].
Qed.
Lemma run_ok evs : forall u E, Forall event_fine evs -> stood u E -> (forall k, Forall uncut (slots_on k evs)) -> (forall k, 1 <= k <= 4 -> all_take (fold_left hear_slot (slots_on k evs) (E k))) ->
  exists u' out, ms_run evs u = Ok (u', out) /\ times evs out /\ stood u' (fun k => fold_left hear_slot (slots_on k evs) (E k)) /\
    forall k, 1 <= k <= 4 -> exists new, grown (E k) (fold_left hear_slot (slots_on k evs) (E k)) new /\ handed (sdus_on k out) new.
Proof.
  induction evs as [|e evs IH]; intros u E F St U T.
  - exists u, []. split; [reflexivity|]. split; [intros ? []|]. split; [exact St|]. intros k Hk. exists []. split; [|constructor].
    cbn [slots_on flat_map fold_left]. destruct St as (_ & _ & H). specialize (H k Hk). destruct (E k) as [got part| |]; try contradiction H. cbn [grown]. now rewrite app_nil_r.
  - pose proof (Forall_inv F) as F1. apply Forall_inv_tail in F.
    assert (TT : forall k, fold_left hear_slot (slots_on k (e :: evs)) (E k) = fold_left hear_slot (slots_on k evs) (fold_left hear_slot (signalling k e) (E k))).
    { intros k. cbn [slots_on flat_map]. now rewrite fold_left_app. }
    assert (UU : forall k, Forall uncut (signalling k e) /\ Forall uncut (slots_on k evs)) by (intros k; specialize (U k); cbn [slots_on flat_map] in U; now apply Forall_app in U).
    destruct (step_ok e u E F1 St (fun k => proj1 (UU k))) as (u1 & o1 & E1 & T1 & S1 & H1).
    { intros k Hk. specialize (T k Hk). rewrite TT in T. exact (slots_back _ _ T). }
    destruct (IH u1 _ F S1 (fun k => proj2 (UU k))) as (u2 & o2 & E2 & T2 & S2 & H2).
    { intros k Hk. specialize (T k Hk). now rewrite TT in T. }
    exists u2, (o1 ++ o2). split; [cbn [ms_run]; rewrite E1; cbn [bind]; rewrite E2; reflexivity|]. split.
    { intros t' IN. apply in_app_or in IN. destruct IN as [IN|IN]; [destruct (T1 t' IN) as (i & b & p & n & h & [I|[]] & X)|destruct (T2 t' IN) as (i & b & p & n & h & I & X)]; exists i, b, p, n, h; (split; [|exact X]); [now left|now right]. }
    split.
    { destruct S2 as (A & B & C). split; [exact A|]. split; [exact B|]. intros k Hk. rewrite TT. exact (C k Hk). }
    intros k Hk. destruct (H1 k Hk) as (n1 & G1 & D1). destruct (H2 k Hk) as (n2 & G2 & D2). exists (n1 ++ n2). rewrite TT, sdus_app. split; [exact (grown_trans _ _ _ _ _ G1 G2)|now apply handed_app].
Qed.
(** ** After anything *)
Definition rested (d : ms_defrag) : Prop := length d = 4 /\ Forall (fun y => (df_is_inactive (df_st y) = true -> y = df_new) /\ df_aie y = false) d.
Lemma rested_new : rested msd_new.
Proof. split; [reflexivity|]. repeat constructor. Qed.
Lemma rested_upd d i x : rested d -> ((df_is_inactive (df_st x) = true -> x = df_new) /\ df_aie x = false) -> rested (upd d i x).
Proof.
  intros [L F] H. split; [now rewrite upd_length|]. apply Forall_forall. intros y IN. rewrite Forall_forall in F. destruct (In_nth _ _ df_new IN) as (j & Hj & <-). rewrite upd_length in Hj. rewrite nth_upd.
  destruct (_ && _)%bool; [exact H|]. apply F, nth_In, Hj.
Qed.
Lemma rested_get d i y : rested d -> msd_get d i = Ok y -> df_aie y = false.
Proof. intros [_ F] H. unfold msd_get in H. destruct (nth_error d i) as [z|] eqn:E; cbn [unwrap] in H; [|discriminate H]. injection H as ->. rewrite Forall_forall in F. exact (proj2 (F y (nth_error_In _ _ E))). Qed.
Ltac undo H := match type of H with bind ?m _ = Ok _ => let E := fresh "E" in destruct m eqn:E; [cbn [bind] in H|discriminate H|discriminate H] end.
Lemma first_rests src t a d d' s' : rested d -> msd_first src t a d = Ok (d', s') -> rested d'.
Proof.
  intros R H. unfold msd_first in H. undo H. undo H. undo H. undo H. destruct a3 as [bits src']. injection H as <- <-. apply rested_upd; [exact R|]. split; [discriminate|reflexivity].
Qed.
Lemma more_rests st src t d d' s' : st <> DfInactive -> rested d -> msd_more st src t d = Ok (d', s') -> rested d'.
Proof.
  intros N R H. unfold msd_more in H. undo H. undo H. pose proof (rested_get _ _ _ R E0) as A. destruct (negb _); [injection H as <- <-; exact R|]. undo H. undo H. destruct (_ <? _)%N; [injection H as <- <-; apply rested_upd; [exact R|split; reflexivity]|].
  undo H. destruct a3 as [bits src']. injection H as <- <-. apply rested_upd; [exact R|]. cbn [df_st df_aie]. split; [|exact A]. destruct st; cbn; discriminate || congruence.
Qed.
Lemma take_rests t d o d' : rested d -> msd_take t d = Ok (o, d') -> rested d'.
Proof.
  intros R H. unfold msd_take in H. undo H. undo H. destruct (df_st a0); try (injection H as <- <-; exact R). undo H. undo H. injection H as <- <-. apply rested_upd; [exact R|split; reflexivity].
Qed.
Tactic Notation "take" ident(x) ident(e) "from" hyp(H) := match type of H with bind ?m _ = Ok _ => destruct m as [x| |] eqn:e; [cbn [bind] in H|discriminate H|discriminate H] end.
Lemma resource_rests i d b d' b' o : rested d -> ms_resource i d b = Ok (d', b', o) -> rested d'.
Proof.
  intros R H. unfold ms_resource in H. take x1 E1 from H. take x2 E2 from H. destruct (mr_read b) as [[p b0]| |]; [|injection H as <- <- <-; exact R|discriminate H].
  take x3 E3 from H. take x4 E4 from H. take x5 E5 from H. destruct x5 as [[nf len'] b1]. destruct (mr_addr p) as [ad|]; [|injection H as <- <- <-; exact R]. destruct (0 <? mr_encmode p)%N; [injection H as <- <- <-; exact R|].
  take x6 E6 from H. destruct x6 as [[d1 b2] o1]. take x7 E7 from H. injection H as <- <- <-.
  destruct (mr_len p =? 63)%N; [take x8 E8 from E6; destruct x8 as [d2 b3]; injection E6 as <- <- <-; exact (first_rests _ _ _ _ _ _ R E8)|].
  destruct (mr_len p =? 62)%N; [injection E6 as <- <- <-; exact R|]. take x8 E8 from E6. destruct (x8 =? 0); [injection E6 as <- <- <-; exact R|]. take x9 E9 from E6. injection E6 as <- <- <-. exact R.
Qed.
Lemma frag_rests i d b d' b' o : rested d -> ms_frag i d b = Ok (d', b', o) -> rested d'.
Proof.
  intros R H. unfold ms_frag in H. take x1 E1 from H. take x2 E2 from H. destruct (mfrag_read b) as [[f b0]| |]; [|injection H as <- <- <-; exact R|discriminate H].
  take x3 E3 from H. take x4 E4 from H. destruct x4 as [[nf len'] b1]. take x5 E5 from H. destruct x5; [injection H as <- <- <-; exact R|]. take x6 E6 from H. destruct x6 as [d1 b2]. injection H as <- <- <-. refine (more_rests _ _ _ _ _ _ _ R E6). discriminate.
Qed.
Lemma end_rests i d b d' b' o : rested d -> ms_end i d b = Ok (d', b', o) -> rested d'.
Proof.
  intros R H. unfold ms_end in H. take x1 E1 from H. take x2 E2 from H. destruct (mend_read b) as [[p b0]| |]; [|injection H as <- <- <-; exact R|discriminate H].
  take x3 E3 from H. take x4 E4 from H. destruct x4 as [[nf len'] b1]. take x5 E5 from H. take x6 E6 from H. take x7 E7 from H. destruct x7 as [d1 b2]. take x8 E8 from H. destruct x8 as [done d2].
  assert (R2 : rested d2) by (refine (take_rests _ _ _ _ _ E8); refine (more_rests _ _ _ _ _ _ _ R E7); discriminate).
  destruct done; [take x9 E9 from H|]; injection H as <- <- <-; exact R2.
Qed.
Lemma pdu_rests i n d b d' b' o : rested d -> ms_pdu i n d b = Ok (d', b', o) -> rested d'.
Proof.
  intros R H. unfold ms_pdu in H. destruct (_ =? 0)%N; [exact (resource_rests _ _ _ _ _ _ R H)|]. destruct (_ =? 1)%N; [destruct (_ =? 0)%N; [exact (frag_rests _ _ _ _ _ _ R H)|exact (end_rests _ _ _ _ _ _ R H)]|].
  destruct (_ =? 2)%N; [|discriminate H]. unfold ms_broadcast in H. take x1 E1 from H. take x2 E2 from H. take x3 E3 from H. destruct (si_read b) as [[p b0]| |]; [|injection H as <- <- <-; exact R|discriminate H]. take x4 E4 from H. injection H as <- <- <-. exact R.
Qed.
Lemma sch_rests fuel : forall i d b d' o, rested d -> ms_sch fuel i d b = Ok (d', o) -> rested d'.
Proof.
  induction fuel as [|fuel IH]; intros i d b d' o R H; [discriminate H|]. cbn [ms_sch] in H. take x1 E1 from H. destruct x1 as [n|]; [|injection H as <- <-; exact R]. take x2 E2 from H. destruct x2 as [[d1 b1] o1]. pose proof (pdu_rests _ _ _ _ _ _ _ R E2) as R1. take x3 E3 from H.
  destruct (_ && _)%bool; [|injection H as <- <-; exact R1]. take x4 E4 from H. destruct x4 as [d2 o2]. injection H as <- <-. exact (IH _ _ _ _ _ R1 E4).
Qed.
Lemma step_rests e u u' o : rested (ms_df u) /\ ms_cc u = None -> ms_step e u = Ok (u', o) -> rested (ms_df u') /\ ms_cc u' = None.
Proof.
  intros [R C] H. assert (SCH : forall i b, (' (d, out) <- ms_sch (S (bend b - bstart b)) i (ms_df u) b ;; Ok (mk_ums d (ms_mcc u) (ms_mnc u) (ms_cc u) (ms_code u), out)) = Ok (u', o) -> rested (ms_df u') /\ ms_cc u' = None).
  { intros i b X. take x1 E1 from X. destruct x1 as [d1 o1]. injection X as <- <-. cbn [ms_df ms_cc]. split; [exact (sch_rests _ _ _ _ _ _ R E1)|exact C]. }
  destruct e as [i b|t [[mcc mnc]|]]; cbn [ms_step] in H.
  - destruct (mi_chan i); try discriminate H; try (destruct (mi_blk i); try discriminate H; exact (SCH _ _ H)).
    + take x1 E1 from H. injection H as <- <-. split; assumption.
    + destruct (sync_read b); try discriminate H; injection H as <- <-; split; assumption.
  - unfold ms_update in H. cbn [ms_mcc ms_mnc ms_cc] in H. rewrite C in H. injection H as <- <-. cbn [ms_df ms_cc]. now split.
  - injection H as <- <-. split; assumption.
Qed.
Lemma run_rests evs : forall u u' o, rested (ms_df u) /\ ms_cc u = None -> ms_run evs u = Ok (u', o) -> rested (ms_df u') /\ ms_cc u' = None.
Proof.
  induction evs as [|e evs IH]; intros u u' o R H; cbn [ms_run] in H; [injection H as <- <-; exact R|]. take x1 E1 from H. destruct x1 as [u1 o1]. take x2 E2 from H. destruct x2 as [u2 o2]. injection H as <- <-. exact (IH _ _ _ (step_rests _ _ _ _ R E1) E2).
Qed.
Lemma rested_stood u : rested (ms_df u) /\ ms_cc u = None -> stood u (fun _ => Clear [] None).
Proof.
  intros [[L F] C]. split; [exact L|]. split; [exact C|]. intros k Hk. cbn [ear_ok keeps]. rewrite Forall_forall in F. apply F, nth_In. lia.
Qed.
Lemma later_times before u0 out0 evs (got : nat -> list (mac_resource * list bool)) (part : nat -> option (mac_resource * list bool)) : ms_run before ums_new = Ok (u0, out0) -> Forall event_fine evs ->
  (forall k, 1 <= k <= 4 -> hear (slots_on k evs) = Clear (got k) (part k) /\ Forall takeable (got k) /\ match part k with Some m => takeable m | None => True end) ->
  (forall k, Forall uncut (slots_on k evs)) ->
  exists u out, ms_run evs u0 = Ok (u, out) /\ times evs out /\ forall k, 1 <= k <= 4 -> handed (sdus_on k out) (got k).
Proof.
  intros B F H U. destruct (run_ok evs u0 (fun _ => Clear [] None) F) as (u & out & E & TM & _ & G).
  - apply rested_stood. refine (run_rests _ _ _ _ _ B). split; [exact rested_new|reflexivity].
  - exact U.
  - intros k Hk. destruct (H k Hk) as (H1 & H2 & H3). unfold hear in H1. rewrite H1. split; assumption.
  - exists u, out. split; [exact E|]. split; [exact TM|]. intros k Hk. destruct (G k Hk) as (new & GR & HD). destruct (H k Hk) as (H1 & _). unfold hear in H1. rewrite H1 in GR. cbn [grown app] in GR. now subst new.
Qed.
Lemma later_history before u0 out0 evs (got : nat -> list (mac_resource * list bool)) (part : nat -> option (mac_resource * list bool)) : ms_run before ums_new = Ok (u0, out0) -> Forall event_fine evs ->
  (forall k, 1 <= k <= 4 -> hear (slots_on k evs) = Clear (got k) (part k) /\ Forall takeable (got k) /\ match part k with Some m => takeable m | None => True end) ->
  (forall k, Forall uncut (slots_on k evs)) ->
  exists u out, ms_run evs u0 = Ok (u, out) /\ forall k, 1 <= k <= 4 -> handed (sdus_on k out) (got k).
Proof.
  intros B F H U. destruct (later_times before u0 out0 evs got part B F H U) as (u & out & E & _ & G). eauto.
Qed.
Lemma whole_history evs (got : nat -> list (mac_resource * list bool)) (part : nat -> option (mac_resource * list bool)) : Forall event_fine evs ->
  (forall k, 1 <= k <= 4 -> hear (slots_on k evs) = Clear (got k) (part k) /\ Forall takeable (got k) /\ match part k with Some m => takeable m | None => True end) ->
  (forall k, Forall uncut (slots_on k evs)) ->
  exists u out, ms_run evs ums_new = Ok (u, out) /\ forall k, 1 <= k <= 4 -> handed (sdus_on k out) (got k).
Proof. exact (later_history [] ums_new [] evs got part eq_refl). Qed.
