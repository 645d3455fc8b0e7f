(** What arrives from the radios: proofs. *)
From Verif Require Import Base BitBuffer BitBufferProofs MacFields TdmaTime TdmaTimeProofs Defrag DefragSpec DefragProofs UlSched DlSched UmacPrecomps TxReceipt UmacBs UmacSched UlBlockSpec UlBlockFacts UplinkSpec.
From Verif Require DlSlot AirFacts.
Open Scope N_scope.

Ltac inv E := apply DlSlot.bind_inv in E; let x := fresh "x" in let H := fresh "H" in destruct E as (x & H & E).
(** * What happens to the reassembler *)
Lemma set_voice_df ts v u : um_defrag (set_voice ts v u) = um_defrag u.
Proof. unfold set_voice. now destruct (_ && _). Qed.
Lemma set_sch_df s u : um_defrag (set_sch s u) = um_defrag u. Proof. reflexivity. Qed.
Lemma silence_df tss : forall u u' o, check_silence tss u = Ok (u', o) -> um_defrag u' = um_defrag u.
Proof.
  induction tss as [|ts r IH]; cbn [check_silence]; intros u u' o E; [now injection E as -> _|]. inv E. inv E. inv E. inv E. destruct x2 as [v o']. injection E as -> _. rewrite (IH _ _ _ H2). destruct x1; [reflexivity|apply set_voice_df].
Qed.
Lemma open_df ds ts us : forall u u', open_dirs ds ts us u = Ok u' -> um_defrag u' = um_defrag u.
Proof.
  induction ds as [|d r IH]; cbn [open_dirs]; intros u u' E; [now injection E as ->|]. inv E. inv E. inv E. rewrite (IH _ _ E). destruct (is_ul d); [now rewrite set_voice_df|reflexivity].
Qed.
Lemma close_df ds ts : forall u u', close_dirs ds ts u = Ok u' -> um_defrag u' = um_defrag u.
Proof.
  induction ds as [|d r IH]; cbn [close_dirs]; intros u u' E; [now injection E as ->|]. inv E. destruct x as [o s]. rewrite (IH _ _ E). destruct o; [|reflexivity]. destruct (is_ul d); [now rewrite set_voice_df|reflexivity].
Qed.
Lemma step_df c e u u' o m : (forall i pdu, e <> UeBlock i pdu) -> um_step c e u = Ok (u', o, m) -> um_defrag u' = um_defrag u.
Proof.
  intros NB E. destruct e as [cn ts|i pdu|r|ts data|t ts data|k]; cbn [um_step] in E.
  - unfold tick_start in E. destruct (refresh_sws _ _ _ _) as [sws s]. inv E. destruct x as [s1 m0]. inv E. destruct x as [u1 o1]. inv E. destruct x as [[kk s2] m2]. injection E as <- _ _. cbn [um_defrag set_sch]. exact (silence_df _ _ _ _ H0).
  - exfalso. exact (NB i pdu eq_refl).
  - inv E. now injection E as <- _ _.
  - inv E. injection E as <- _ _. unfold rx_dl_voice in H. inv H. inv H. assert (D : um_defrag x0 = um_defrag u).
    { destruct (_ && _) in H0; [|now injection H0 as ->]. inv H0. injection H0 as <-. destruct x2; [apply set_voice_df|reflexivity]. }
    destruct x1; [inv H; injection H as <-; exact D|injection H as <-; exact D].
  - inv E. destruct x as [u1 o1]. injection E as <- _ _. unfold rx_ul_voice in H. cbn zeta in H. inv H. inv H. destruct x0 as [|].
    + inv H. destruct x0 as [b|]; [inv H; injection H as <- _; cbn; apply set_voice_df|injection H as <- _; apply set_voice_df].
    + injection H as <- _. apply set_voice_df.
  - inv E. destruct x as [u1 m1]. injection E as <- _ _. unfold rx_control in H. destruct k; try (injection H as <- _; reflexivity).
    all: try (inv H; destruct x as [s mm]; injection H as <- _; now rewrite set_voice_df).
    + inv H. injection H as <- _. exact (open_df _ _ _ _ _ H0).
    + inv H. injection H as <- _. exact (close_df _ _ _ _ H0).
Qed.

(** the event of the reassembler for an act *)
Definition piece (n : note) (es : list df_event) : Prop :=
  let t := tv_time (nt_ind n) in
  match nt_act n with
  | AFirst a d => exists f, wf f /\ remaining f = d /\ es = [DfStart t a false f]
  | AMore d => match nt_owner n with Some s => exists f, wf f /\ remaining f = d /\ es = [DfNext t s f] | None => es = [] end
  | ALast _ d => match nt_owner n with Some s => exists f, wf f /\ remaining f = d /\ es = [DfEnd t s f] | None => es = [] end
  | _ => es = []
  end.
Inductive pieces : list note -> list df_event -> Prop :=
| pc_nil : pieces [] []
| pc_snoc ns es n e : pieces ns es -> piece n e -> pieces (ns ++ [n]) (es ++ e).
Definition plain (e : df_event) : Prop := match e with DfStart _ _ b _ => b = false | DfTick _ | DfReset => False | _ => True end.
Definition timed (n : note) : Prop := vtime (tv_time (nt_ind n)).
Lemma piece_ok n es : timed n -> piece n es -> Forall df_time_ok es /\ Forall plain es.
Proof.
  unfold piece, timed. intros T. destruct (nt_act n); try (intros ->; split; constructor).
  - intros (f & W & _ & ->). split; (apply Forall_cons; [|apply Forall_nil]); cbn [df_time_ok plain]; auto.
  - destruct (nt_owner n); [|intros ->; split; constructor]. intros (f & W & _ & ->). split; (apply Forall_cons; [|apply Forall_nil]); cbn [df_time_ok plain]; auto.
  - destruct (nt_owner n); [|intros ->; split; constructor]. intros (f & W & _ & ->). split; (apply Forall_cons; [|apply Forall_nil]); cbn [df_time_ok plain]; auto.
Qed.
Lemma never_encrypted k ssi es a aie bits last : Forall plain es -> collected k ssi es a aie bits last -> aie = false.
Proof.
  intros P C. induction C; apply Forall_app in P; destruct P as (P1 & P2); auto. now apply Forall_inv in P2.
Qed.
Lemma clear_aie es t ssi d : Forall df_time_ok es -> Forall plain es -> vtime t -> df_run defrag_new es = Ok d -> get_aie_info ssi t d = Ok false.
Proof.
  intros F P V R. destruct (aie_exact es t ssi F V) as (d' & x & R' & G & X). rewrite R in R'. injection R' as <-. rewrite G. f_equal. destruct x; [|reflexivity]. destruct X as (X & _). destruct (X eq_refl) as (a & bits & last & C).
  now apply (never_encrypted _ _ _ _ _ _ _ P) in C.
Qed.
(** * What is being collected *)
Lemma piece_about k ssi n es : piece n es -> about k ssi n = existsb (df_about k ssi) es.
Proof.
  unfold piece, about, nt_ts. destruct (nt_act n); try (intros ->; cbn [existsb]; now rewrite andb_false_r).
  - intros (f & _ & _ & ->). cbn [existsb df_about]. now rewrite orb_false_r.
  - destruct (nt_owner n); [|intros ->; cbn [existsb]; now rewrite andb_false_r]. intros (f & _ & _ & ->). cbn [existsb df_about]. now rewrite orb_false_r.
  - destruct (nt_owner n); [|intros ->; cbn [existsb]; now rewrite andb_false_r]. intros (f & _ & _ & ->). cbn [existsb df_about]. now rewrite orb_false_r.
Qed.
Lemma snoc_inj {A} (a b : list A) x y : a ++ [x] = b ++ [y] -> a = b /\ x = y.
Proof. apply app_inj_tail. Qed.
Lemma collecting_collected k ssi ns es : pieces ns es -> Forall plain es -> forall a bits, collecting k ssi ns a bits <-> exists aie last, collected k ssi es a aie bits last.
Proof.
  induction 1 as [|ns es n e P IH PC]; intros PL a bits.
  { split; intros H; [inversion H as [? ? ? ? ? ? ? E|? ? ? ? ? ? ? ? ? ? E|? ? ? ? ? ? E]; now apply app_eq_nil in E as (_ & ?)|].
    destruct H as (aie & last & H). inversion H as [? ? ? ? ? ? ? E|? ? ? ? ? ? ? ? ? ? E|? ? ? ? ? ? ? ? ? ? E|? ? ? ? ? ? ? ? E]; now apply app_eq_nil in E as (_ & ?). }
  apply Forall_app in PL. destruct PL as (PL & PE). specialize (IH PL). pose proof (piece_about k ssi n e PC) as AB.
  split.
  - intros C. inversion C as [ms x a' d T A S E1|ms x a' b' d C' T A O L E1|ms x a' b' C' AF E1]; subst; apply snoc_inj in E1; destruct E1 as (-> & ->).
    + unfold piece in PC. rewrite A in PC. destruct PC as (f & _ & <- & ->). do 2 eexists. now constructor.
    + unfold piece in PC. rewrite A, O in PC. destruct PC as (f & _ & <- & ->). apply IH in C'. destruct C' as (aie & last & C'). do 2 eexists. eapply c_next; [exact C'|reflexivity|exact L].
    + apply IH in C'. destruct C' as (aie & last & C'). destruct e as [|e1 e2]; [rewrite app_nil_r; eauto|].
      assert (e2 = []) as ->. { unfold piece in PC. destruct (nt_act n); try discriminate PC; try (destruct (nt_owner n); [|discriminate PC]); destruct PC as (f & _ & _ & X); now injection X. }
      exists aie, last. apply c_other; [exact C'|]. rewrite AF in AB. cbn [existsb] in AB. symmetry in AB. now apply orb_false_iff in AB.
  - intros (aie & last & C). destruct e as [|e1 e2].
    + rewrite app_nil_r in C. apply cl_other; [apply IH; eauto|exact AB].
    + assert (e2 = []) as ->. { unfold piece in PC. destruct (nt_act n); try discriminate PC; try (destruct (nt_owner n); [|discriminate PC]); destruct PC as (f & _ & _ & X); now injection X. }
      inversion C as [h t a' aie' f T S E1|h a' aie' b' l' t f C' T L E1|h a' aie' b' l' t dd C' D1 D2 E1|h a' aie' b' l' x C' AF E1]; subst; apply snoc_inj in E1; destruct E1 as (-> & <-).
      * unfold piece in PC. destruct (nt_act n) as [| | | |a0 d| |] eqn:A; try discriminate PC; try (destruct (nt_owner n); [|discriminate PC]); destruct PC as (f0 & _ & R & X); try discriminate X. injection X as X1 X2 X3 X4. subst. now apply cl_first.
      * unfold piece in PC. destruct (nt_act n) as [| | | | |d|] eqn:A; try discriminate PC; try (destruct (nt_owner n) eqn:O; [|discriminate PC]); destruct PC as (f0 & _ & R & X); try discriminate X. injection X as X1 X2 X3. subst.
        apply cl_more; auto. apply IH. eauto.
      * apply Forall_inv in PE. destruct PE.
      * apply cl_other; [apply IH; eauto|]. rewrite AB. cbn [existsb]. now rewrite AF.
Qed.

(** * An act *)
Definition held (ns : list note) (u : umac) : Prop := exists es, pieces ns es /\ Forall df_time_ok es /\ Forall plain es /\ df_run defrag_new es = Ok (um_defrag u).
Lemma df_run_app h : forall d e, df_run d (h ++ e) = (d' <- df_run d h ;; df_run d' e).
Proof. induction h as [|x h IH]; intros d e; cbn [app df_run bind]; [reflexivity|]. destruct (df_step d x) as [[d' g]| |]; cbn [bind]; auto. Qed.
Lemma held_act ns u n u' more : held ns u -> timed n -> nt_before n = u -> does (nt_ind n) (nt_act n) u (Ok (u', nt_out n, more)) ->
  held (ns ++ [n]) u' /\ explained ns n.
Proof.
  intros (es & P & F & PL & R) T B D. subst u.
  assert (K : forall e, piece n e -> df_run (um_defrag (nt_before n)) e = Ok (um_defrag u') -> held (ns ++ [n]) u').
  { intros e PC RE. destruct (piece_ok n e T PC) as (F1 & F2). exists (es ++ e). split; [now constructor|]. split; [apply Forall_app; auto|]. split; [apply Forall_app; auto|].
    rewrite df_run_app, R. exact RE. }
  unfold does in D. unfold explained. destruct (nt_act n) as [|a|a q|a d|a d|d|q d] eqn:A.
  - injection D as -> -> _. split; [|reflexivity]. apply (K []); [unfold piece; now rewrite A|reflexivity].
  - symmetry in D. inv D. injection D as <- <- _. split; [|reflexivity]. apply (K []); [unfold piece; now rewrite A|reflexivity].
  - symmetry in D. inv D. injection D as <- <- _. split; [|reflexivity]. apply (K []); [unfold piece; now rewrite A|reflexivity].
  - destruct D as (b & W & E1 & E2 & E3). injection E3 as -> -> _. split; [|eauto 8]. apply (K []); [unfold piece; now rewrite A|reflexivity].
  - destruct D as (f & W & <- & D). symmetry in D. inv D. destruct x as [df g]. injection D as <- <- _. split; [|reflexivity].
    apply (K [DfStart (tv_time (nt_ind n)) a false f]); [unfold piece; rewrite A; eauto|]. cbn [df_run]. rewrite H. reflexivity.
  - destruct D as (f & W & <- & D). symmetry in D. inv D. assert (OW : nt_owner n = x) by (unfold nt_owner; now rewrite H). destruct x as [s|].
    + inv D. rewrite (clear_aie es _ _ _ F PL T R) in H0. injection H0 as <-. inv D. destruct x as [df g]. injection D as <- <- _. split; [|reflexivity].
      apply (K [DfNext (tv_time (nt_ind n)) s f]); [unfold piece; rewrite A, OW; eauto|]. cbn [df_run]. rewrite H0. reflexivity.
    + injection D as <- <- _. split; [|reflexivity]. apply (K []); [unfold piece; now rewrite A, OW|reflexivity].
  - destruct D as (f & W & <- & D). symmetry in D. inv D. assert (OW : nt_owner n = x) by (unfold nt_owner; now rewrite H). rewrite OW. destruct x as [s|].
    + inv D. rewrite (clear_aie es _ _ _ F PL T R) in H0. injection H0 as <-. cbn [negb assert bind] in D. inv D. destruct x as [df g].
      assert (HP : held (ns ++ [n]) u').
      { apply (K [DfEnd (tv_time (nt_ind n)) s f]); [unfold piece; rewrite A, OW; eauto|]. cbn [df_run]. rewrite H0. cbn [bind]. f_equal.
        destruct g as [|[b|] [|]]; [injection D as <- _ _|inv D; injection D as <- _ _|injection D as <- _ _..]; reflexivity. }
      split; [exact HP|]. destruct (reassembly_exact es (tv_time (nt_ind n)) s f F T W) as (d0 & o & d' & f' & R0 & IL & Q). rewrite R in R0. injection R0 as <-.
      cbn [df_step] in H0. rewrite IL in H0. cbn [bind] in H0. injection H0 as <- <-.
      pose proof (collecting_collected (tm_t (tv_time (nt_ind n))) s ns es P PL) as CC.
      destruct Q as [(a & aie & bits & last & b & C & L & -> & AD & RB)|(NC & EH)]; [left|right].
      * inv D. injection D as _ <- _. exists a, bits, (df_bits b). split; [apply CC; eauto|]. rewrite AD. auto.
      * split; [intros a bits C; apply CC in C; destruct C as (aie & last & C); exact (NC _ _ _ _ C)|].
        destruct EH as [->|(b & -> & AD & _ & _ & RB)]; [left; now injection D as _ <- _|right]. inv D. injection D as _ <- _. exists (df_bits b). rewrite AD. auto.
    + injection D as <- <- _. split; [|reflexivity]. apply (K []); [unfold piece; now rewrite A, OW|reflexivity].
Qed.
Definition all_explained (ns : list note) : Prop := forall before n after, ns = before ++ n :: after -> explained before n.
Lemma explained_snoc ns n : all_explained ns -> explained ns n -> all_explained (ns ++ [n]).
Proof.
  intros X E b m a EQ. destruct a as [|x a] using rev_ind; [apply app_inj_tail in EQ; destruct EQ as (-> & ->); exact E|]. clear IHa.
  rewrite app_comm_cons, app_assoc in EQ. apply app_inj_tail in EQ. destruct EQ as (EQ & _). exact (X _ _ _ EQ).
Qed.
Lemma held_chain i ms : forall ns u u', vtime (tv_time i) -> chain i u ms u' -> held ns u -> all_explained ns -> held (ns ++ ms) u' /\ all_explained (ns ++ ms).
Proof.
  induction ms as [|n ms IH]; intros ns u u' V C Hh X; inversion C as [|? ? v ? more I D C']; subst; [rewrite app_nil_r; auto|].
  destruct (held_act ns _ n v more Hh V eq_refl D) as (H1 & E1). destruct (IH (ns ++ [n]) v u' V C' H1 (explained_snoc _ _ X E1)) as (H2 & E2). rewrite <- app_assoc in H2, E2. auto.
Qed.

(** * A block *)
Lemma chain_app i ns ms : forall u v w, chain i u ns v -> chain i v ms w -> chain i u (ns ++ ms) w.
Proof. induction ns as [|n ns IH]; intros u v w A B; inversion A; subst; [exact B|]. cbn [app]. econstructor; eauto. Qed.
Definition stray (ns : list note) : Prop := exists ms x req d, ns = ms ++ [x] /\ nt_act x = ALast req d /\ nt_out x = [].
Lemma done_chain i acts : forall u r, does_all i acts u r -> forall u' o c, r = Ok (u', o, c) ->
  exists ns, chain i u ns u' /\ o = flat_map nt_out ns /\ ((c = true /\ map nt_act ns = acts) \/ (c = false /\ stray ns /\ exists more, acts = map nt_act ns ++ more)).
Proof.
  induction 1 as [u|x l u D|x l u v ov D|x l u v ov D r DA IH]; intros u' o c E.
  - injection E as <- <- <-. exists []. split; [constructor|]. auto.
  - discriminate E.
  - injection E as -> -> <-. set (n := mk_note i x u o). exists [n]. split; [apply (ch_cons i n [] u' u' false); [reflexivity|exact D|constructor]|]. split; [cbn; now rewrite app_nil_r|]. right.
    split; [reflexivity|]. split; [|exists l; reflexivity]. unfold does in D. destruct x; try discriminate D; try (symmetry in D; inv D; discriminate D).
    + destruct D as (? & _ & _ & _ & D). discriminate D.
    + destruct D as (? & _ & _ & D). symmetry in D. inv D. destruct x0. discriminate D.
    + destruct D as (? & _ & _ & D). symmetry in D. inv D. destruct x0; [|discriminate D]. inv D. destruct x0; [discriminate D|]. inv D. destruct x0. discriminate D.
    + exists [], n, req, sdu. split; [reflexivity|]. split; [reflexivity|]. cbn [n nt_out]. destruct D as (f & _ & _ & D). symmetry in D. inv D. destruct x; [|now injection D as _ <-].
      inv D. inv D. inv D. destruct x1 as [df g]. destruct g as [|[b|] [|]]; try (inv D; discriminate D); now injection D as _ <-.
  - destruct r as [[[w o'] c']| |]; try discriminate E. cbn [bind] in E. injection E as -> <- ->. destruct (IH _ _ _ eq_refl) as (ns & C & EO & Q). set (n := mk_note i x u ov). exists (n :: ns).
    split; [exact (ch_cons i n ns v u' true eq_refl D C)|]. split; [cbn [flat_map n nt_out]; now rewrite EO|]. destruct Q as [(-> & <-)|(-> & (ms & y & req & d & -> & Q1 & Q2) & more & ->)]; [left; auto|right].
    split; [reflexivity|]. split; [exists (n :: ms), y, req, d; auto|exists more; reflexivity].
Qed.
Lemma heard_chain i l u r : heard i l u r -> forall u' o, r = Ok (u', o) -> exists ns, chain i u ns u' /\ o = flat_map nt_out ns /\ covers (tv_chan i) l ns.
Proof.
  induction 1 as [l u F|l u acts n F D|l u acts n v ov c F D Q|l u acts n v ov F D Q|l u acts n v ov r F D Q H IH]; intros u' o E; try discriminate E.
  - injection E as -> ->. destruct (done_chain _ _ _ _ D _ _ _ eq_refl) as (ns & C & EO & [(-> & <-)|(-> & (ms & x & req & d & -> & Q1 & Q2) & more & ->)]); eexists; (split; [exact C|]); (split; [exact EO|]).
    + destruct Q as [Q| ->]; [discriminate Q|]. eapply cv_end; eauto.
    + eapply cv_stray; eauto.
  - injection E as -> ->. destruct (done_chain _ _ _ _ D _ _ _ eq_refl) as (ns & C & EO & [(_ & <-)|(Z0 & _)]); [|discriminate Z0]. eexists; (split; [exact C|]); (split; [exact EO|]). eapply cv_end; eauto.
  - destruct r as [[w o']| |]; try discriminate E. cbn [bind] in E. injection E as -> <-. destruct (IH _ _ eq_refl) as (ms & C2 & EO2 & V2).
    destruct (done_chain _ _ _ _ D _ _ _ eq_refl) as (ns & C & EO & [(_ & <-)|(Z0 & _)]); [|discriminate Z0].
    exists (ns ++ ms). split; [exact (chain_app _ _ _ _ _ _ C C2)|]. split; [now rewrite flat_map_app, EO, EO2|]. eapply cv_next; eauto.
Qed.

(** * Histories *)
Definition ul_fine (e : um_event) : Prop := ev_fine e /\ match e with UeBlock i _ => on_channel i = true | _ => True end.
Lemma run_split c e evs u v log : um_run c (evs ++ [e]) u = Ok (v, log) ->
  exists u' lg o m, um_run c evs u = Ok (u', lg) /\ um_step c e u' = Ok (v, o, m) /\ log = lg ++ [(e, o, m)].
Proof.
  revert u log. induction evs as [|x evs IH]; intros u log E; cbn [app um_run] in E.
  - inv E. destruct x as [[u1 o] m]. cbn [bind um_run] in E. injection E as <- <-. exists u, [], o, m. auto.
  - inv E. destruct x0 as [[u1 o] m]. inv E. destruct x0 as [u2 lg]. injection E as <- <-. destruct (IH _ _ H0) as (u' & lg' & o' & m' & E1 & E2 & ->).
    exists u', ((x, o, m) :: lg'), o', m'. split; [cbn [um_run]; rewrite H; cbn [bind]; rewrite E1; reflexivity|]. auto.
Qed.
Theorem traced c connected u0 cn t evs u log : umac_new c connected = Ok u0 -> vtime t -> Forall ul_fine evs ->
  um_run c (UeTick cn t :: evs) u0 = Ok (u, log) -> exists ns, lived c log ns u.
Proof.
  intros EN V. revert u log. induction evs as [|e evs IH] using rev_ind; intros u log F E.
  - cbn [um_run] in E. inv E. destruct x as [[u1 o] m]. cbn [bind] in E. injection E as <- <-. exists []. exact (lv_start c _ _ _ _ _ _ _ EN V H).
  - apply Forall_app in F. destruct F as (F & FE). apply Forall_inv in FE. destruct FE as (FE & CH). rewrite app_comm_cons in E. apply run_split in E. destruct E as (u' & lg & o & m & E1 & E2 & ->).
    destruct (IH _ _ F E1) as (ns & L).
    assert (RC : reached c u'). { exists connected, u0, cn, t, evs, lg. split; [exact EN|]. split; [exact V|]. split; [|exact E1]. eapply Forall_impl; [|exact F]. intros x X. apply X. }
    assert (K : exists ms, match e with UeBlock i pdu => on_channel i = true /\ chain i u' ms u /\ o = flat_map nt_out ms /\ covers (tv_chan i) (window pdu) ms | _ => ms = [] end).
    { destruct e as [| i pdu| | | |]; try (exists []; reflexivity). cbn [um_step] in E2. inv E2. destruct x as [v o']. injection E2 as <- <- _. destruct FE as (W & P & T).
      destruct (block_heard c u' i pdu RC W P T CH) as (r & R & HD). rewrite H in R. subst r. destruct (heard_chain _ _ _ _ HD _ _ eq_refl) as (ms & Q). exists ms. auto. }
    destruct K as (ms & K). exists (ns ++ ms). exact (lv_step c _ _ _ _ _ _ _ _ L FE E2 K).
Qed.
Lemma lived_held c log ns u : lived c log ns u -> held ns u /\ all_explained ns.
Proof.
  induction 1 as [connected u0 cn t u o m EN V ST|log ns u e ms u' o m L (IH & X) FE ST K].
  - split; [|intros b n a E; now destruct b]. exists []. split; [constructor|]. split; [constructor|]. split; [constructor|]. cbn [df_run]. f_equal.
    assert (D : um_defrag u = um_defrag u0) by (apply (step_df _ _ _ _ _ _) in ST; [exact ST|intros; discriminate]). rewrite D. unfold umac_new in EN. inv EN. now injection EN as <-.
  - destruct e as [| i pdu| | | |]; try (subst ms; rewrite app_nil_r; split; [|exact X]; destruct IH as (es & P1 & P2 & P3 & P4); exists es; apply step_df in ST; [rewrite ST; auto|intros; discriminate]).
    destruct K as (_ & C & _ & _). apply (held_chain i ms ns u u'); auto. apply FE.
Qed.
Theorem all_notes_explained c log ns u : lived c log ns u -> forall before n after, ns = before ++ n :: after -> explained before n.
Proof. intros L. exact (proj2 (lived_held _ _ _ _ L)). Qed.
