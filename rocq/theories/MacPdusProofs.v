(** Round-trip proofs for the MAC PDUs. *)
From Verif Require Import Base BitsLib BitBuffer BitBufferProofs BitBufferOps Codec CodecProofs TypedFields Layout LayoutProofs MacFields MacPdus MacSpec.
Open Scope N_scope.
Open Scope codec_scope.

Ltac splitb :=
  repeat match goal with
  | H : (_ && _)%bool = true |- _ => apply andb_prop in H; let H1 := fresh H in let H2 := fresh H in destruct H as [H1 H2]
  end.
Ltac pow2 := repeat match goal with
  | H : context [2 ^ N.of_nat ?n] |- _ => let x := eval vm_compute in (2 ^ N.of_nat n) in change (2 ^ N.of_nat n) with x in H
  end.

Ltac bclean := repeat match goal with
  | H : (?x =? ?y) = true |- _ => is_var x; apply N.eqb_eq in H; subst x
  | H : negb ?x = true |- _ => is_var x; destruct x; [discriminate|]; clear H
  | H : is_none ?x = true |- _ => is_var x; destruct x; [discriminate|]; clear H
  | H : Bool.eqb ?x _ = true |- _ => is_var x; apply Bool.eqb_prop in H; subst x
  end.

Lemma WL_opt {A} (x : option A) (w : A -> wr) k f L :
  (forall v, x = Some v -> WL (w v) (f v)) -> WL k L -> WL (wthen (wopt_flag x w) k) (optl x f ++ L).
Proof.
  intros H HK. unfold wopt_flag, optl. destruct x as [v|].
  - cbn [app]. apply WL_assoc. apply WL_field; [lia|]. apply WL_sub; [now apply H|assumption].
  - cbn [app]. apply WL_field; [lia|assumption].
Qed.
Lemma RL_opt {A B} (x : option A) (r : reader A) (k : option A -> reader B) f L y :
  (forall v, x = Some v -> RL r (f v) v) -> RL (k x) L y -> RL (rbind (ropt_flag r) k) (optl x f ++ L) y.
Proof.
  intros H HK. unfold ropt_flag, ropt, optl. apply RL_assoc. destruct x as [v|]; cbn [app].
  - apply RL_flag1. apply RL_assoc. eapply RL_sub; [now apply H|]. now apply RL_ret_l.
  - apply RL_flag0. now apply RL_ret_l.
Qed.

Lemma sg_WL s : WL (sg_write s) (sg_layout s).
Proof. unfold sg_write, sg_layout. wl. Qed.
Lemma gd_try_raw s : sg_valid s = true -> gd_try_from (gd_into_raw (sg_delay s)) = Some (sg_delay s).
Proof.
  unfold sg_valid. intros H. splitb. destruct (sg_delay s) as [|n| |]; try reflexivity. splitb. cbn [gd_into_raw]. unfold gd_try_from.
  destruct (N.eqb_spec n 0); [lia|].
  replace ((1 <=? n) && (n <=? 13))%bool with true by lia. reflexivity.
Qed.
Lemma sg_RL s : sg_valid s = true -> RL sg_read (sg_layout s) s.
Proof.
  intros V. unfold sg_read, sg_layout. rl1. pow2. eapply RL_lift; [unfold cap_try_from; destruct (N.leb_spec (sg_cap s) 15); [reflexivity|lia]|].
  rl1. eapply RL_lift; [rewrite gd_try_raw by assumption; reflexivity|]. apply RL_ret_eq. destruct s; reflexivity.
Qed.

Lemma ca_WL c : ca_valid c = true -> WL (ca_write c) (ca_layout c).
Proof.
  unfold ca_valid. intros H. splitb. destruct c as [ty [[[t1 t2] t3] t4] ud cl cc car ext mon f18].
  cbn [ca_type ca_ts ca_uldl ca_clch ca_cell_change ca_carrier ca_ext ca_mon ca_f18_mon] in *.
  destruct ext; [discriminate|]. unfold ca_write, ca_layout. cbn [ca_type ca_ts ca_uldl ca_clch ca_cell_change ca_carrier ca_ext ca_mon ca_f18_mon app].
  wl. destruct f18 as [v|]; destruct (mon =? 0); try discriminate; wl.
Qed.
Lemma ts_bitmap t1 t2 t3 t4 L :
  reads (rfield 4) [t1; t2; t3; t4] (bits_val [t1; t2; t3; t4]) ->
  enc (fl t1 :: fl t2 :: fl t3 :: fl t4 :: L) = [t1; t2; t3; t4] ++ enc L.
Proof. intros _. destruct t1, t2, t3, t4; reflexivity. Qed.
Lemma RL_field4 {A} t1 t2 t3 t4 (k : N -> reader A) L x :
  RL (k (bits_val [t1; t2; t3; t4])) L x -> RL (rbind (rfield 4) k) (fl t1 :: fl t2 :: fl t3 :: fl t4 :: L) x.
Proof.
  intros H F. rewrite ts_bitmap by (apply reads_field_bits; [reflexivity|lia]).
  eapply reads_bind; [apply reads_field_bits; [reflexivity|lia]|]. apply H.
  unfold fl in F. repeat (apply fits_cons in F; destruct F as (_ & F)). exact F.
Qed.
Lemma ca_RL c : ca_valid c = true -> RL ca_read (ca_layout c) c.
Proof.
  unfold ca_valid. intros H. splitb. destruct c as [ty [[[t1 t2] t3] t4] ud cl cc car ext mon f18].
  cbn [ca_type ca_ts ca_uldl ca_clch ca_cell_change ca_carrier ca_ext ca_mon ca_f18_mon] in *.
  destruct ext; [discriminate|]. unfold ca_read, ca_layout. cbn [ca_type ca_ts ca_uldl ca_clch ca_cell_change ca_carrier ca_ext ca_mon ca_f18_mon app].
  rl1. pow2. eapply RL_lift; [unfold try_from_2bit; destruct (N.leb_spec ty 3); [reflexivity|lia]|].
  apply RL_field4. rl1. pow2. eapply RL_lift; [unfold try_from_2bit; destruct (N.leb_spec ud 3); [reflexivity|lia]|].
  rl. unfold ropt. destruct f18 as [v|]; destruct (mon =? 0); try discriminate; rl; destruct t1, t2, t3, t4; reflexivity.
Qed.

Lemma fits_opt_app {A} (x : option A) f L : fits (optl x f ++ L) = true -> fits L = true.
Proof. rewrite fits_app. intros H. apply andb_prop in H. tauto. Qed.
Lemma opt_valid_some {A} (f : A -> bool) x v : opt_valid f x = true -> x = Some v -> f v = true.
Proof. intros H ->. exact H. Qed.

(** MAC-RESOURCE *)
Lemma mr_tail_WL p : opt_valid ca_valid (mr_ca p) = true ->
  WL (wopt_flag (mr_pc p) (fun v => wfield v 4) >> wopt_flag (mr_sg p) sg_write >> wopt_flag (mr_ca p) ca_write >> wret)
     (optl (mr_pc p) (fun v => [(v, 4%nat)]) ++ optl (mr_sg p) sg_layout ++ optl (mr_ca p) ca_layout).
Proof.
  intros VC. apply WL_opt; [intros v _; wl|]. apply WL_opt; [intros v _; apply sg_WL|].
  apply WL_nil. rewrite app_nil_r. rewrite <- (app_nil_r (optl (mr_ca p) ca_layout)). apply WL_opt; [|apply WL_ret].
  intros v E. apply ca_WL. eapply opt_valid_some; eassumption.
Qed.
Lemma mr_tail_RL {B} p (k : option N -> option slotgrant -> option chan_alloc -> reader B) y :
  opt_valid sg_valid (mr_sg p) = true -> opt_valid ca_valid (mr_ca p) = true ->
  RL (k (mr_pc p) (mr_sg p) (mr_ca p)) [] y ->
  RL (rbind (ropt_flag (rfield 4)) (fun pc => rbind (ropt_flag sg_read) (fun sg => rbind (ropt_flag ca_read) (fun ca => k pc sg ca))))
     (optl (mr_pc p) (fun v => [(v, 4%nat)]) ++ optl (mr_sg p) sg_layout ++ optl (mr_ca p) ca_layout) y.
Proof.
  intros VS VC H. apply RL_opt; [intros v _; rl|]. apply RL_opt; [intros v E; apply sg_RL; eapply opt_valid_some; eassumption|].
  rewrite <- (app_nil_r (optl (mr_ca p) ca_layout)). apply RL_opt; [|assumption].
  intros v E. apply ca_RL. eapply opt_valid_some; eassumption.
Qed.

Ltac red_mr := cbn [mr_fill mr_pog mr_encmode mr_raf mr_len mr_addr mr_el mr_um mr_pc mr_sg mr_ca ad_ssi ad_enc ad_type app option_map on_air] in *.
Lemma mr_WL p : mr_valid p = true -> WL (mr_write p) (mr_layout p).
Proof.
  unfold mr_valid. intros H. splitb. unfold mr_write, mr_layout.
  pose proof (mr_tail_WL p ltac:(assumption)) as HT. set (tw := wopt_flag (mr_pc p) _ >> _) in *. set (tl := optl (mr_pc p) _ ++ _) in *.
  destruct p as [fi pog em raf len ad el um pc sg ca]. red_mr. clearbody tw tl.
  apply WL_assert; [assumption|]. wl.
  unfold mr_addr_valid, mr_addr_type, mr_addr_layout, mr_is_null in *. red_mr.
  destruct ad as [[ssi en ty]|]; [destruct ty, el, um|destruct el, um]; red_mr; cbn [is_none is_some andb] in *; splitb; try discriminate;
    cbn [negb] in *; unfold mr_write_addr, w_unwrap; red_mr; cbn [N.eqb Pos.eqb orb]; wl; try assumption.
  bclean. cbn [negb andb N.eqb]. wl.
Qed.
Lemma mr_RL p : mr_valid p = true -> RL mr_read (mr_layout p) (mr_on_air p).
Proof.
  unfold mr_valid. intros H. splitb. unfold mr_read, mr_layout, mr_on_air.
  destruct p as [fi pog em raf len ad el um pc sg ca]. red_mr.
  pose proof (fun B k y => @mr_tail_RL B (mk_mres fi pog em raf len ad el um pc sg ca) k y ltac:(assumption) ltac:(assumption)) as HT. red_mr.
  rl. unfold mr_addr_valid, mr_addr_layout, mr_is_null in *. red_mr.
  destruct ad as [[ssi en ty]|]; [destruct ty, el, um|destruct el, um]; red_mr; cbn [is_none is_some andb] in *; splitb; try discriminate;
    cbn [negb] in *; bclean; rl; cbn [N.eqb Pos.eqb]; unfold mr_read_addr; cbn [N.eqb Pos.eqb fst snd];
    rl; cbn [fst snd]; try (apply HT; rl).
Qed.
Lemma mr_carries p : mr_valid p = true -> carries (mr_write p) mr_read (mr_on_air p) (mr_layout p).
Proof. intros V. apply carries_intro; [unfold mr_valid in V; splitb; assumption|now apply mr_WL|now apply mr_RL]. Qed.

(** Header length *)
Lemma ca_width c : ca_valid c = true -> ca_compute_len c = Ok (width (ca_layout c)).
Proof.
  unfold ca_valid. intros H. splitb. destruct c as [ty [[[t1 t2] t3] t4] ud cl cc car ext mon f18].
  unfold ca_compute_len, ca_layout. cbn [ca_type ca_ts ca_uldl ca_clch ca_cell_change ca_carrier ca_ext ca_mon ca_f18_mon] in *.
  bclean. cbn [is_some]. destruct (ud =? 0); [discriminate|]. destruct f18, (mon =? 0); try discriminate; reflexivity.
Qed.
Lemma mr_header_len p : mr_valid p = true -> mr_compute_header_len p = Ok (width (mr_layout p)).
Proof.
  unfold mr_valid. intros H. splitb. unfold mr_compute_header_len, mr_layout.
  assert (HC : forall c, mr_ca p = Some c -> ca_compute_len c = Ok (width (ca_layout c))).
  { intros c E. apply ca_width. eapply opt_valid_some; eassumption. }
  rewrite !width_app.
  destruct p as [fi pog em raf len ad el um pc sg ca]. red_mr.
  unfold mr_addr_valid, mr_addr_layout, mr_is_null in *. red_mr.
  destruct ad as [[ssi en ty]|]; [destruct ty, el, um|destruct el, um]; red_mr; cbn [is_none is_some andb] in *; splitb; try discriminate;
    rewrite ?width_app; destruct pc, sg, ca as [c|]; try discriminate; try (rewrite (HC c eq_refl)); cbn [bind optl is_some]; try reflexivity;
    change ((1, 1%nat) :: ca_layout c) with ([(1, 1%nat)] ++ ca_layout c); rewrite width_app; f_equal; cbn [width map list_sum fold_right snd sg_layout fl]; lia.
Qed.

(** The other PDUs *)
Lemma mfrag_carries f : carries (mfrag_write f) mfrag_read f (mfrag_layout f).
Proof. apply carries_intro; [destruct f; reflexivity| |]; unfold mfrag_write, mfrag_read, mfrag_layout; [wl|rl]. Qed.

Lemma mend_carries p : mend_valid p = true -> carries (mend_write p) mend_read p (mend_layout p).
Proof.
  unfold mend_valid. intros H. splitb. apply carries_intro; [assumption| |]; unfold mend_write, mend_read, mend_layout; cbn [app];
    rewrite <- (app_nil_r (optl (me_ca p) ca_layout)).
  - wl. apply WL_opt; [intros; apply sg_WL|]. apply WL_opt; [intros v E; apply ca_WL; eapply opt_valid_some; eassumption|wl].
  - rl. apply RL_opt; [intros v E; apply sg_RL; eapply opt_valid_some; eassumption|].
    apply RL_opt; [intros v E; apply ca_RL; eapply opt_valid_some; eassumption|]. apply RL_ret_eq. destruct p; reflexivity.
Qed.

Lemma mehu_carries p : mehu_valid p = true -> carries (mehu_write p) mehu_read p (mehu_layout p).
Proof.
  unfold mehu_valid. intros H. splitb. apply carries_intro; [assumption| |]; unfold mehu_write, mehu_read, mehu_layout, w_unwrap in *;
    destruct p as [f [l|] [q|]]; cbn [eh_fill eh_len eh_req app is_some xorb] in *; try discriminate.
  - wl.
  - wl.
  - rl. cbn [N.eqb]. rl.
  - rl. pow2. cbn [N.eqb]. rl. pow2. eapply RL_lift; [unfold resreq_try_from; destruct (N.leb_spec q 15); [reflexivity|lia]|]. rl.
Qed.

Lemma meul_writes p : meul_valid p = true -> writes (meul_write p) (enc (meul_layout p)).
Proof.
  unfold meul_valid, meul_write, meul_layout. destruct p as [f [l|] [q|]]; cbn [eu_fill eu_len eu_req app is_some xorb]; intros H; try discriminate.
  - splitb. assert (F : fits [(1, 2%nat); (1, 1%nat); fl f; (l, 6%nat)] = true).
    { cbn [fits forallb fst snd fl]. change (2 ^ N.of_nat 6) with 64. rewrite !andb_true_iff. repeat split; try (apply N.ltb_lt; lia); destruct f; reflexivity. }
    revert F. change (WL (wfield 1 2 >> wfield 1 1 >> wflag f >> wguard true EInvalidValue >> (wguard (0 <? l) EInvalidValue >> wguard (l <? 46) EInvalidValue >> wfield l 6) >> wret) [(1, 2%nat); (1, 1%nat); fl f; (l, 6%nat)]).
    wl.
  - assert (Hq : q <= 15) by lia.
    replace (enc [(1, 2%nat); (1, 1%nat); fl f; (48 + q, 6%nat)]) with (enc [(1, 2%nat); (1, 1%nat); fl f; (3, 2%nat); (q, 4%nat)]).
    + assert (F : fits [(1, 2%nat); (1, 1%nat); fl f; (3, 2%nat); (q, 4%nat)] = true).
      { cbn [fits forallb fst snd fl]. change (2 ^ N.of_nat 4) with 16. rewrite !andb_true_iff. repeat split; try (apply N.ltb_lt; lia); destruct f; reflexivity. }
      revert F. change (WL (wfield 1 2 >> wfield 1 1 >> wflag f >> wguard true EInvalidValue >> (wfield 3 2 >> wfield q 4) >> wret) [(1, 2%nat); (1, 1%nat); fl f; (3, 2%nat); (q, 4%nat)]).
      wl.
    + cbn [enc flat_map fst snd fl]. do 3 f_equal. rewrite !app_nil_r.
      assert (E : forallb (fun q => if list_eq_dec Bool.bool_dec (bits_of 2 3 ++ bits_of 4 q) (bits_of 6 (48 + q)) then true else false)
                   (map N.of_nat (seq 0 16)) = true) by (vm_compute; reflexivity).
      rewrite forallb_forall in E. specialize (E q). destruct (list_eq_dec _ _ _) as [e|] in E; [exact e|].
      discriminate E. apply in_map_iff. exists (N.to_nat q). split; [lia|]. apply in_seq. lia.
Qed.

(** A length indication 1..45 is read back; a reservation requirement never is. *)
Lemma meul_read_len f l : 1 <= l -> l <= 46 -> reads meul_read (enc [(1, 2%nat); (1, 1%nat); fl f; (l, 6%nat)]) (mk_meul f (Some l) None).
Proof.
  intros H1 H2. assert (F : fits [(1, 2%nat); (1, 1%nat); fl f; (l, 6%nat)] = true).
  { cbn [fits forallb fst snd fl]. change (2 ^ N.of_nat 6) with 64. rewrite !andb_true_iff. repeat split; try (apply N.ltb_lt; lia); destruct f; reflexivity. }
  revert F. change (RL meul_read [(1, 2%nat); (1, 1%nat); fl f; (l, 6%nat)] (mk_meul f (Some l) None)).
  unfold meul_read. rl. destruct (N.eqb_spec l 0); [lia|]. destruct (N.ltb_spec l 47); [|lia]. rl.
Qed.
Lemma meul_carries p : meul_valid p = true -> eu_req p = None -> carries (meul_write p) meul_read p (meul_layout p).
Proof.
  intros V E. split; [now apply meul_writes|]. unfold meul_valid in V. unfold meul_layout. destruct p as [f [l|] [q|]]; cbn [eu_fill eu_len eu_req] in *; try discriminate.
  splitb. apply meul_read_len; lia.
Qed.
(** No input at all makes the reader return a reservation requirement. *)
Lemma meul_never_req b p b' : wf b -> meul_read b = Ok (p, b') -> eu_req p = None.
Proof.
  intros W. unfold meul_read, rbind, rassert, rret, rpanic, rerr, rlift. 
  destruct (rfield 2 b) as [[v1 b1]| |] eqn:E1; cbn [bind fst snd]; try discriminate.
  destruct (v1 =? 1); cbn [bind fst snd]; try discriminate.
  destruct (rfield 1 b1) as [[v2 b2]| |] eqn:E2; cbn [bind fst snd]; try discriminate.
  destruct (v2 =? 1); cbn [bind fst snd]; try discriminate.
  destruct (rflag b2) as [[v3 b3]| |] eqn:E3; cbn [bind fst snd]; try discriminate.
  destruct (rfield 6 b3) as [[v4 b4]| |] eqn:E4; cbn [bind fst snd]; try discriminate.
  assert (W3 : wf b3).
  { assert (S : rsafe (rbind (rfield 2) (fun _ => rbind (rfield 1) (fun _ => rflag)))).
    { apply rsafe_bind; [apply rsafe_field; lia|]. intros _. apply rsafe_bind; [apply rsafe_field; lia|]. intros _. apply rsafe_flag. }
    specialize (S b W). unfold rbind in S. rewrite E1 in S. cbn [bind fst snd] in S. rewrite E2 in S. cbn [bind fst snd] in S. rewrite E3 in S.
    destruct S as (n & -> & Hn). now apply wf_adv. }
  assert (B := rfield_bound 6 b3 v4 b4 ltac:(lia) W3 E4). change (2 ^ N.of_nat 6) with 64 in B.
  destruct (v4 =? 0); try discriminate. destruct (v4 <? 47); [intros E; injection E as <- _; reflexivity|].
  destruct (N.ltb_spec v4 1114112); [discriminate|lia].
Qed.

Lemma RL_ignore {A} (k : unit -> reader A) L x : RL (k tt) L x -> RL (rbind r_ignore_bit k) ((0, 1%nat) :: L) x.
Proof.
  intros H F. apply fits_cons in F. destruct F as (_ & F). apply (reads_bind _ _ [false] (enc L) tt); [|now apply H].
  intros b rest W R. unfold r_ignore_bit.
  assert (E := reads_field1 false b rest W R). unfold rfield, read_field in E.
  destruct (read_bits_opt b 1) as [[[v|] b']| |]; cbn [bind] in *; try discriminate E. congruence.
Qed.

Ltac red_mu := cbn [mu_fill mu_enc mu_addr mu_el mu_len mu_frag mu_req ad_ssi ad_enc ad_type app is_some is_none orb andb negb xorb] in *.
Lemma macc_carries p : macc_valid p = true -> carries (macc_write p) macc_read p (macc_layout p).
Proof.
  unfold macc_valid. intros H. splitb. apply carries_intro; [assumption| |];
    unfold macc_write, macc_read, macc_layout, mu_addr_layout, mu_addr_valid, mu_tail_valid in *;
    destruct p as [fi en ad el len fr rq]; red_mu;
    (destruct ad as [[s e ty]|]; destruct el as [el|]; red_mu; splitb; try discriminate);
    destruct len, fr, rq; try discriminate; red_mu; bclean; try (destruct ty; try discriminate); unfold w_unwrap.
  all: try solve [wl].
  all: unfold mu_read_addr; rl; cbn [N.eqb Pos.eqb]; rl; cbn [fst snd N.eqb Pos.eqb]; rl; try reflexivity.
  all: cbn [fst snd N.eqb Pos.eqb]; rl; cbn [fst snd N.eqb Pos.eqb]; rl.
  all: pow2; eapply RL_lift; [unfold resreq_try_from; match goal with |- context [?q <=? 15] => destruct (N.leb_spec q 15); [reflexivity|lia] end|]; rl.
Qed.
Lemma mdata_carries p : mdata_valid p = true -> carries (mdata_write p) mdata_read p (mdata_layout p).
Proof.
  unfold mdata_valid. intros H. splitb. apply carries_intro; [assumption| |];
    unfold mdata_write, mdata_read, mdata_layout, mu_addr_layout, mu_addr_valid, mu_tail_valid in *;
    destruct p as [fi en ad el len fr rq]; red_mu;
    (destruct ad as [[s e ty]|]; destruct el as [el|]; red_mu; splitb; try discriminate);
    destruct len, fr, rq; try discriminate; red_mu; bclean; try (destruct ty; try discriminate); unfold w_unwrap.
  all: try solve [wl].
  all: unfold mu_read_addr; rl; cbn [N.eqb Pos.eqb]; rl; cbn [fst snd N.eqb Pos.eqb]; rl; try reflexivity.
  all: cbn [fst snd N.eqb Pos.eqb]; rl; cbn [fst snd N.eqb Pos.eqb]; rl.
  all: pow2; eapply RL_lift; [unfold resreq_try_from; match goal with |- context [?q <=? 15] => destruct (N.leb_spec q 15); [reflexivity|lia] end|]; apply RL_ignore; rl.
Qed.

Lemma ublck_carries p : fits (ublck_layout p) = true -> carries (ublck_write p) ublck_read p (ublck_layout p).
Proof.
  intros F. apply carries_intro; [assumption| |]; unfold ublck_write, ublck_read, ublck_layout; [wl|]. rl. destruct p; reflexivity.
Qed.
Lemma usignal_carries s : carries (usignal_write s) usignal_read s (usignal_layout s).
Proof. apply carries_intro; [destruct s; reflexivity| |]; unfold usignal_write, usignal_read, usignal_layout; [wl|rl]. Qed.
Lemma dblck_carries p : fits (dblck_layout p) = true -> opt_valid sg_valid (db_sg p) = true -> carries (dblck_write p) dblck_read p (dblck_layout p).
Proof.
  intros F V. apply carries_intro; [assumption| |]; unfold dblck_write, dblck_read, dblck_layout; cbn [app];
    rewrite <- (app_nil_r (optl (db_sg p) sg_layout)).
  - wl. apply WL_opt; [intros; apply sg_WL|wl].
  - rl. apply RL_opt; [intros v E; apply sg_RL; eapply opt_valid_some; eassumption|]. apply RL_ret_eq. destruct p; reflexivity.
Qed.
