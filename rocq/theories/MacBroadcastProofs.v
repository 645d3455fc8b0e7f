(** Round-trip proofs for broadcast and access-assignment PDUs, and parser safety on arbitrary bits. *)
From Verif Require Import Base BitsLib BitBuffer BitBufferProofs BitBufferOps Codec CodecProofs TypedFields TypedFieldsProofs Layout LayoutProofs TdmaTime
  MacFields MacPdus MacBroadcast MacSpec MacPdusProofs.
Open Scope N_scope.
Open Scope codec_scope.

Lemma WL_af a k L : WL k L -> WL (wthen (w_af a) k) (af_layout a ++ L).
Proof. intros H. unfold w_af, af_layout. cbn [app]. wl. assumption. Qed.
Lemma WL_af_end a k : WL k [] -> WL (wthen (w_af a) k) (af_layout a).
Proof. intros H. rewrite <- (app_nil_r (af_layout a)). now apply WL_af. Qed.
Lemma af_bits (c l : N) : c < 4 -> l < 16 -> bits_of 2 c ++ bits_of 4 l = bits_of 6 (c * 16 + l) /\ af_of (c * 16 + l) = mk_af c l.
Proof.
  intros Hc Hl.
  assert (E : forallb (fun c => forallb (fun l => if list_eq_dec Bool.bool_dec (bits_of 2 c ++ bits_of 4 l) (bits_of 6 (c * 16 + l))
                  then (N.land (N.shiftr (c * 16 + l) 4) 3 =? c) && (N.land (c * 16 + l) 15 =? l) else false)%bool
                (map N.of_nat (seq 0 16))) (map N.of_nat (seq 0 4)) = true) by (vm_compute; reflexivity).
  rewrite forallb_forall in E. specialize (E c). rewrite forallb_forall in E. specialize (fun H => E H l).
  assert (I1 : In c (map N.of_nat (seq 0 4))) by (apply in_map_iff; exists (N.to_nat c); split; [lia|apply in_seq; lia]).
  assert (I2 : In l (map N.of_nat (seq 0 16))) by (apply in_map_iff; exists (N.to_nat l); split; [lia|apply in_seq; lia]).
  specialize (E I1 I2). destruct (list_eq_dec _ _ _) as [e|]; [|discriminate]. apply andb_prop in E. destruct E as (E1 & E2).
  apply N.eqb_eq in E1, E2. split; [assumption|]. unfold af_of. now rewrite E1, E2.
Qed.
Lemma RL_af {A} a (k : N -> reader A) L x :
  (forall v, af_of v = a -> RL (k v) L x) -> RL (rbind (rfield 6) k) (af_layout a ++ L) x.
Proof.
  intros H F. destruct a as [c l]. unfold af_layout in *. cbn [af_code af_len app] in *.
  apply fits_cons in F. destruct F as (F1 & F). apply fits_cons in F. destruct F as (F2 & F). pow2.
  destruct (af_bits c l F1 F2) as (E1 & E2).
  cbn [enc flat_map fst snd]. rewrite app_assoc, E1.
  apply (reads_bind _ _ (bits_of 6 (c * 16 + l)) (enc L) (c * 16 + l)); [|now apply H].
  apply reads_field; [lia|]. change (2 ^ N.of_nat 6) with 64. lia.
Qed.
Lemma dl_from_to d : um_dl_valid d = true -> dl_from_um (dl_to_um d) = d.
Proof.
  destruct d as [| | | |u]; try reflexivity. cbn [um_dl_valid dl_to_um]. intros H. splitb. unfold dl_from_um.
  destruct (N.eqb_spec u 0); [lia|]. destruct (N.eqb_spec u 1); [lia|]. destruct (N.eqb_spec u 2); [lia|]. destruct (N.eqb_spec u 3); [lia|]. reflexivity.
Qed.
Lemma ul_from_traffic u : um_ul_valid (UlTraffic u) = true -> ul_from_um u = Some (UlTraffic u).
Proof. cbn. intros H. splitb. unfold ul_from_um. destruct (N.eqb_spec u 0); [lia|]. destruct (N.ltb_spec u 4); [lia|]. reflexivity. Qed.

Lemma aa_carries p : aa_valid p = true -> carries (aa_write p) aa_read p (aa_layout p).
Proof.
  unfold aa_valid. intros H. splitb. destruct p as [d u f1 f2 f]. cbn [aa_dl aa_ul aa_f1_af1 aa_f2_af2 aa_f2_af] in *.
  apply carries_intro; [assumption| |]; unfold aa_write, aa_read, aa_layout in *; cbn [aa_dl aa_ul aa_f1_af1 aa_f2_af2 aa_f2_af] in *.
  - destruct u, f1, f2, f; try discriminate; destruct d; try discriminate; cbn [is_some is_none andb w_unwrap ul_to_um dl_to_um]; wl;
      cbn [app]; repeat first [apply WL_af|apply WL_af_end|wl1].
  - destruct u, f1, f2, f; try discriminate.
    + destruct d; try discriminate. rl. rewrite <- (app_nil_r (af_layout a0)). apply RL_af. intros v <-. apply RL_af. intros v' <-. cbn [N.eqb]. rl.
    + cbn [app]. rl. rewrite <- (app_nil_r (af_layout _)). apply RL_af. intros v <-. cbn [N.eqb Pos.eqb]. rl. now rewrite dl_from_to.
    + cbn [app]. rl. rewrite <- (app_nil_r (af_layout _)). apply RL_af. intros v <-. cbn [N.eqb Pos.eqb]. rl. now rewrite dl_from_to.
    + rl. cbn [N.eqb Pos.eqb]. eapply RL_lift; [reflexivity|]. rl. now rewrite dl_from_to.
    + rl. cbn [N.eqb Pos.eqb]. eapply RL_lift; [rewrite ul_from_traffic by assumption; reflexivity|]. rl. now rewrite dl_from_to.
Qed.
Lemma a18_carries p : a18_valid p = true -> carries (a18_write p) a18_read p (a18_layout p).
Proof.
  unfold a18_valid. intros H. splitb. destruct p as [u f1 f2 f]. cbn [a18_ul a18_f1_af1 a18_f2_af2 a18_f2_af] in *.
  apply carries_intro; [assumption| |]; unfold a18_write, a18_read, a18_layout in *; cbn [a18_ul a18_f1_af1 a18_f2_af2 a18_f2_af] in *.
  - destruct u, f1, f2, f; try discriminate; cbn [is_some is_none andb w_unwrap]; wl;
      cbn [app]; repeat first [apply WL_af|apply WL_af_end|wl1].
  - destruct u, f1, f2, f; try discriminate.
    1-3: rl; rewrite <- (app_nil_r (af_layout a0)); apply RL_af; intros v <-; apply RL_af; intros v' <-; cbn [N.eqb Pos.eqb]; rl.
    cbn [app]. rl. rewrite <- (app_nil_r (af_layout _)). apply RL_af. intros v <-. cbn [N.eqb Pos.eqb].
    eapply RL_lift; [rewrite ul_from_traffic by assumption; reflexivity|]. rl.
Qed.

Lemma sync_carries p : sync_valid p = true -> carries (sync_write p) sync_read p (sync_layout p).
Proof.
  unfold sync_valid, is_valid. intros H. splitb. destruct p as [sy co [t f m h] sh tr dt fx].
  cbn [sy_sys sy_colour sy_time sy_sharing sy_tsres sy_dtx sy_f18ext tm_t tm_f tm_m tm_h] in *.
  apply carries_intro; [assumption| |]; unfold sync_write, sync_read, sync_layout; cbn [sy_sys sy_colour sy_time sy_sharing sy_tsres sy_dtx sy_f18ext tm_t tm_f tm_m tm_h].
  - replace (Z.to_N t - 1) with (Z.to_N (t - 1)) by lia. wl.
  - rl. replace (Z.of_N (Z.to_N t - 1) + 1)%Z with t by lia. replace h with 0%Z by lia.
    rewrite !Z2N.id by lia. reflexivity.
Qed.

Lemma aca_WL p : WL (aca_write p) (aca_layout p).
Proof. unfold aca_write, aca_layout. wl. Qed.
Lemma aca_RL p : RL aca_read (aca_layout p) p.
Proof. unfold aca_read, aca_layout. rl. destruct p; reflexivity. Qed.
Lemma es_WL p : es_valid p = true -> WL (es_write p) (es_layout p).
Proof.
  unfold es_valid. intros H. splitb. destruct p as [au c1 c2 c3 sck a b c d sd g se da].
  cbn [es_auth es_c1 es_c2 es_c3 es_sck es_dcks es_dckr es_gckl es_gckvn es_sdstl es_gck es_section es_data] in *.
  unfold es_write, es_layout. cbn [es_auth es_c1 es_c2 es_c3 es_sck es_dcks es_dckr es_gckl es_gckvn es_sdstl es_gck es_section es_data app].
  destruct sck, a, b, c, d; try discriminate; destruct c2, c3; try discriminate; cbn [w_unwrap app andb negb]; wl.
Qed.
Lemma es_RL p : es_valid p = true -> RL (es_read true) (es_layout p) p.
Proof.
  unfold es_valid. intros H. splitb. destruct p as [au c1 c2 c3 sck a b c d sd g se da].
  cbn [es_auth es_c1 es_c2 es_c3 es_sck es_dcks es_dckr es_gckl es_gckvn es_sdstl es_gck es_section es_data] in *.
  unfold es_read, es_layout. cbn [es_auth es_c1 es_c2 es_c3 es_sck es_dcks es_dckr es_gckl es_gckvn es_sdstl es_gck es_section es_data app].
  destruct sck, a, b, c, d; try discriminate; destruct c2, c3; try discriminate; cbn [app];
    repeat first [rl1 | progress (cbn [N.eqb negb])].
Qed.
Lemma si_carries p : si_valid p = true -> carries (si_write p) si_read p (si_layout p).
Proof.
  unfold si_valid. intros H. splitb. destruct p as [car ba of du re cs tx rx ap dl cck hy op tcf aca ex].
  cbn [si_carrier si_band si_offset si_duplex si_reverse si_csch si_txpwr si_rxlev si_accpar si_dltimeout si_cck si_hyper si_opt si_tcf si_aca si_ext] in *.
  assert (HO : (exists a, op = 2 /\ aca = Some a /\ ex = None) \/ (exists e, op = 3 /\ aca = None /\ ex = Some e /\ es_valid e = true)).
  { destruct op as [|[[?|?|]|[?|?|]|]]; try discriminate; destruct aca, ex; try discriminate; [right|left]; eexists; repeat split; assumption. }
  bclean.
  apply carries_intro; [assumption| |]; unfold si_write, si_read, si_layout;
    cbn [si_carrier si_band si_offset si_duplex si_reverse si_csch si_txpwr si_rxlev si_accpar si_dltimeout si_cck si_hyper si_opt si_tcf si_aca si_ext app].
  - destruct HO as [(a & -> & -> & ->)|(e & -> & -> & -> & V)]; destruct cck, hy; try discriminate; cbn [is_some is_none xorb app N.eqb Pos.eqb w_unwrap]; wl.
    1-2: rewrite <- (app_nil_r (aca_layout a)); apply WL_sub; [apply aca_WL|wl].
    1-2: rewrite <- (app_nil_r (es_layout e)); apply WL_sub; [now apply es_WL|wl].
  - destruct HO as [(a & -> & -> & ->)|(e & -> & -> & -> & V)]; destruct cck, hy; try discriminate; cbn [app]; rl; cbn [fst snd N.eqb Pos.eqb].
    1-2: rewrite <- (app_nil_r (aca_layout a)); eapply RL_sub; [apply aca_RL|rl].
    1-2: rewrite <- (app_nil_r (es_layout e)); eapply RL_sub; [now apply es_RL|rl].
Qed.
Lemma adf_carries p : adf_valid p = true -> carries (adf_write p) adf_read p (adf_layout p).
Proof.
  unfold adf_valid. intros H. splitb. destruct p as [cm co im wt nu ff ts pr op cl gs].
  cbn [adf_common adf_code adf_imm adf_wt adf_nu adf_flf adf_ts adf_prio adf_opt adf_class adf_gssi] in *.
  apply carries_intro; [assumption| |]; unfold adf_write, adf_read, adf_layout;
    cbn [adf_common adf_code adf_imm adf_wt adf_nu adf_flf adf_ts adf_prio adf_opt adf_class adf_gssi app].
  - unfold wopt. destruct cl, gs; cbn [app]; wl.
  - rl. repeat match goal with H : Bool.eqb _ _ = true |- _ => apply Bool.eqb_prop in H; rewrite H end. unfold ropt.
    destruct cl, gs; cbn [is_some app] in *; rl; reflexivity.
Qed.

(** ** Safety of the uplink parsers *)
Definition rsafe_at {A} (l : list bool) (r : reader A) : Prop :=
  forall b rest, wf b -> remaining b = l ++ rest ->
    match r b with Ok (_, b') => exists n, b' = adv b n /\ (n <= length (remaining b))%nat | Err _ => True | Panic => False end.
Lemma rsafe_at_nil {A} (r : reader A) : rsafe r -> rsafe_at [] r.
Proof. intros H b rest W _. exact (H b W). Qed.
Lemma rsafe_at_field {A} v n l (k : N -> reader A) :
  (n <= 64)%nat -> v < 2 ^ N.of_nat n -> rsafe_at l (k v) -> rsafe_at (bits_of n v ++ l) (rbind (rfield n) k).
Proof.
  intros Hn Hv H b rest W E. unfold rbind. rewrite <- app_assoc in E. rewrite (reads_field v n Hn Hv b (l ++ rest) W E). cbn [bind fst snd].
  assert (W' : wf (adv b (length (bits_of n v)))) by (apply wf_adv; [assumption|rewrite E, app_length; lia]).
  specialize (H (adv b (length (bits_of n v))) rest W'). rewrite remaining_adv in H by assumption. rewrite E in H.
  rewrite skipn_app, skipn_all, Nat.sub_diag in H. specialize (H eq_refl).
  destruct (k v (adv b (length (bits_of n v)))) as [[y b2]| |]; try exact H.
  destruct H as (m & -> & Hm). exists (length (bits_of n v) + m)%nat. rewrite adv_adv. split; [reflexivity|].
  rewrite E, !app_length. change (skipn 0 (l ++ rest)) with (l ++ rest) in Hm. cbn [app] in Hm. rewrite app_length in Hm. lia.
Qed.
Lemma rsafe_at_assert {A} c l (k : unit -> reader A) : c = true -> rsafe_at l (k tt) -> rsafe_at l (rbind (rassert c) k).
Proof. intros -> H b rest W E. exact (H b rest W E). Qed.

Lemma rsafe_lift_bound {A B} (x : res B) (k : B -> reader A) : x <> Panic -> (forall y, rsafe (k y)) -> rsafe (rbind (rlift x) k).
Proof. intros Hx H b W. unfold rbind, rlift. destruct x; cbn [bind fst snd]; [apply H; assumption|exact I|congruence]. Qed.
Lemma resreq_some v : v < 2 ^ N.of_nat 4 -> unwrap (resreq_try_from v) <> Panic.
Proof. intros H. change (2 ^ N.of_nat 4) with 16 in H. unfold resreq_try_from. destruct (N.leb_spec v 15); [discriminate|lia]. Qed.
Lemma ok_or_safe {A} (x : option A) e : ok_or x e <> Panic.
Proof. destruct x; discriminate. Qed.
Lemma rsafe_ignore : rsafe r_ignore_bit.
Proof.
  intros b W. unfold r_ignore_bit. pose proof (rsafe_field 1 ltac:(lia) b W) as H. unfold rfield, read_field in H.
  destruct (read_bits_opt b 1) as [[[v|] b']| |] eqn:E; cbn [bind] in *; try exact H.
  unfold read_bits_opt in E. destruct (sub_checked (bpos b) (bstart b)) as [p| |]; cbn [bind] in E; try discriminate.
  destruct (peek_bits_startoffset b p 1) as [[?|]| |]; cbn [bind] in E; try discriminate. 
  exists 0%nat. rewrite adv_0. split; [congruence|lia].
Qed.
Lemma rsafe_mu_addr e : rsafe (mu_read_addr e).
Proof.
  unfold mu_read_addr. apply rsafe_bind_field; [lia|]. intros t Ht. change (2 ^ N.of_nat 2) with 4 in Ht.
  destruct (N.eqb_spec t 0); [apply rsafe_bind; [apply rsafe_field; lia|intros; apply rsafe_ret]|].
  destruct (N.eqb_spec t 1); [apply rsafe_bind; [apply rsafe_field; lia|intros; apply rsafe_ret]|].
  destruct (N.eqb_spec t 2); [apply rsafe_bind; [apply rsafe_field; lia|intros; apply rsafe_ret]|].
  destruct (N.eqb_spec t 3); [apply rsafe_bind; [apply rsafe_field; lia|intros; apply rsafe_ret]|lia].
Qed.
Ltac rsafe1 := first
  [ apply rsafe_ret | apply rsafe_err | apply rsafe_flag | apply rsafe_guard | apply rsafe_ignore | apply rsafe_mu_addr
  | (apply rsafe_field; lia)
  | (apply rsafe_bind_field; [lia|intros ? ?])
  | (apply rsafe_lift_bound; [first [now apply resreq_some | apply ok_or_safe]|intros ?])
  | (apply rsafe_bind; [|intros ?])
  | apply rsafe_if ].

Lemma macc_safe : rsafe_at [false] macc_read.
Proof. apply (rsafe_at_field 0 1 []); [lia|lia|]. apply rsafe_at_assert; [reflexivity|]. apply rsafe_at_nil. repeat rsafe1. Qed.
Lemma mdata_safe : rsafe_at [false; false] mdata_read.
Proof. apply (rsafe_at_field 0 2 []); [lia|reflexivity|]. apply rsafe_at_assert; [reflexivity|]. apply rsafe_at_nil. repeat rsafe1. Qed.
Lemma mfrag_safe : rsafe_at [false; true; false] mfrag_read.
Proof.
  apply (rsafe_at_field 1 2 [false]); [lia|reflexivity|]. apply rsafe_at_assert; [reflexivity|].
  apply (rsafe_at_field 0 1 []); [lia|lia|]. apply rsafe_at_assert; [reflexivity|]. apply rsafe_at_nil. repeat rsafe1.
Qed.
Lemma meul_safe : rsafe_at [false; true; true] meul_read.
Proof.
  apply (rsafe_at_field 1 2 [true]); [lia|reflexivity|]. apply rsafe_at_assert; [reflexivity|].
  apply (rsafe_at_field 1 1 []); [lia|reflexivity|]. apply rsafe_at_assert; [reflexivity|]. apply rsafe_at_nil. repeat rsafe1.
Qed.
Lemma mehu_safe : rsafe_at [true] mehu_read.
Proof. apply (rsafe_at_field 1 1 []); [lia|reflexivity|]. apply rsafe_at_assert; [reflexivity|]. apply rsafe_at_nil. repeat rsafe1. Qed.
Lemma ublck_safe : rsafe_at [true; true; false] ublck_read.
Proof.
  apply (rsafe_at_field 3 2 [false]); [lia|reflexivity|]. apply rsafe_at_assert; [reflexivity|].
  apply (rsafe_at_field 0 1 []); [lia|lia|]. apply rsafe_at_assert; [reflexivity|]. apply rsafe_at_nil. repeat rsafe1.
Qed.
Lemma usignal_safe : rsafe_at [true; true] usignal_read.
Proof. apply (rsafe_at_field 3 2 []); [lia|reflexivity|]. apply rsafe_at_assert; [reflexivity|]. apply rsafe_at_nil. repeat rsafe1. Qed.
