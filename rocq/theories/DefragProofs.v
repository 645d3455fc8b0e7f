(** Proofs about uplink reassembly. *)
From Verif Require Import Base AMap BitsLib BitBuffer BitBufferProofs BitBufferOps MacFields TdmaTime TdmaTimeProofs FragProofs Defrag DefragSpec.
Open Scope N_scope.

(** The specification as a fold over the history. *)
Definition cst := option (tetra_addr * bool * list bool * tdma_time).
Definition cstep (ts : Z) (ssi : N) (c : cst) (e : df_event) : cst :=
  if negb (df_about ts ssi e) then c else
  match e with
  | DfStart t a aie f => Some (a, aie, remaining f, t)
  | DfNext t _ f => match c with Some (a, aie, bits, last) => if 4096 <? N.of_nat (length bits + length (remaining f)) then None else Some (a, aie, bits ++ remaining f, t) | None => None end
  | DfEnd _ _ _ => None
  | DfTick t => match c with Some (a, aie, bits, last) => match tdiff t last with Ok d => if (40 <? d)%Z then None else c | _ => None end | None => None end
  | DfReset => None
  end.
Definition coll (ts : Z) (ssi : N) (h : list df_event) : cst := fold_left (cstep ts ssi) h None.
Lemma coll_snoc ts ssi h e : coll ts ssi (h ++ [e]) = cstep ts ssi (coll ts ssi h) e.
Proof. unfold coll. now rewrite fold_left_app. Qed.

Lemma collected_coll ts ssi h a aie bits last : collected ts ssi h a aie bits last <-> coll ts ssi h = Some (a, aie, bits, last).
Proof.
  split.
  - induction 1 as [h t a aie f E1 E2|h a aie bits last t f H IH E1 E2|h a aie bits last t d H IH E1 E2|h a aie bits last e H IH E]; rewrite coll_snoc; unfold cstep; cbn [df_about].
    + rewrite E1, E2, Z.eqb_refl, N.eqb_refl. reflexivity.
    + rewrite E1, Z.eqb_refl, N.eqb_refl, IH. cbn [andb negb]. destruct (N.ltb_spec 4096 (N.of_nat (length bits + length (remaining f)))); [lia|reflexivity].
    + rewrite IH, E1. cbn [negb]. destruct (Z.ltb_spec 40 d); [lia|reflexivity].
    + rewrite E. exact IH.
  - revert a aie bits last. induction h as [|e h IH] using rev_ind; intros a aie bits last; [discriminate|]. rewrite coll_snoc. unfold cstep.
    destruct (df_about ts ssi e) eqn:EA; cbn [negb]; [|intros H; apply c_other; auto].
    destruct e as [t a' aie' f|t s f|t s f|t|]; try discriminate; cbn [df_about] in EA.
    + intros H. assert (a' = a /\ aie' = aie /\ remaining f = bits /\ t = last) as (-> & -> & <- & ->) by (repeat split; congruence). apply c_start; lia.
    + destruct (coll ts ssi h) as [[[[a0 aie0] b0] l0]|] eqn:EC; [|discriminate]. destruct (N.ltb_spec 4096 (N.of_nat (length b0 + length (remaining f)))) as [L|L]; [discriminate|].
      intros H. assert (a0 = a /\ aie0 = aie /\ b0 ++ remaining f = bits /\ t = last) as (-> & -> & <- & ->) by (repeat split; congruence).
      assert (s = ssi) as -> by lia. eapply c_next; [apply IH; reflexivity|lia|assumption].
    + destruct (coll ts ssi h) as [[[[a0 aie0] b0] l0]|] eqn:EC; [|discriminate]. destruct (tdiff t l0) as [d| |] eqn:ED; try discriminate.
      destruct (Z.ltb_spec 40 d) as [L|L]; [discriminate|]. intros H. assert (a0 = a /\ aie0 = aie /\ b0 = bits /\ l0 = last) as (-> & -> & -> & ->) by (repeat split; congruence).
      eapply c_tick; eauto.
Qed.

(** A reassembly buffer that holds [bits]. *)
Definition holds (b : bitbuf) (bits : list bool) : Prop :=
  wf b /\ autoexp b = true /\ bstart b = 0%nat /\ bpos b = bend b /\ window b = bits.
Lemma holds_new : holds (bb_new_autoexpand DEFRAG_BUF_INITIAL_LEN) [].
Proof. split; [apply wf_new_autoexpand|]. repeat split. Qed.
Lemma holds_len b bits : holds b bits -> get_len b = Ok (length bits).
Proof.
  intros (W & _ & S & P & E). unfold get_len, sub_checked. destruct W as (W1 & W2 & _). destruct (Nat.leb_spec (bstart b) (bend b)); [|lia].
  f_equal. rewrite <- E. unfold window. now rewrite bits_rng_length.
Qed.
Lemma holds_copy b bits src : holds b bits -> wf src -> exists b', copy_bits (length (remaining src)) src b = Ok (b', adv src (length (remaining src))) /\ holds b' (bits ++ remaining src).
Proof.
  intros (W & A & S & P & E) Ws. destruct (copy_bits_spec (length (remaining src)) src b Ws W (Nat.le_refl _)) as (b' & EC & O); [left; assumption|].
  rewrite firstn_all in O. exists b'. split; [assumption|].
  pose proof (wrote_written _ _ _ W O) as EW. pose proof O as (W' & S' & A' & P' & _ & _ & _ & _ & T'). specialize (T' P).
  split; [assumption|]. split; [congruence|]. split; [congruence|]. split; [congruence|].
  unfold window. rewrite T'. fold (written b'). rewrite EW. f_equal. rewrite <- E. unfold written, window. now rewrite P.
Qed.

Definition entry_ok (o : option df_buf) (c : cst) : Prop :=
  match c with
  | Some (a, aie, bits, last) => exists b, o = Some b /\ df_st b = DfActive /\ df_addr b = a /\ df_aie b = aie /\ df_last b = last /\ holds (df_bits b) bits /\ vtime last
  | None => o = None \/ o = Some df_new
  end.
Definition times_ok (m : amap df_buf) : Prop := Forall (fun p => vtime (df_last (snd p))) m.
Definition df_rel (d : defrag) (h : list df_event) : Prop :=
  length d = 4%nat /\ Forall times_ok d /\
  forall ts ssi, (1 <= ts <= 4)%Z -> entry_ok (aget ssi (nth (Z.to_nat (ts - 1)) d [])) (coll ts ssi h).

Lemma vtime_default : vtime time_default.
Proof. unfold vtime, time_default. cbn [tm_t tm_f tm_m tm_h]. lia. Qed.
Lemma times_set m k b : times_ok m -> vtime (df_last b) -> times_ok (aset k b m).
Proof. intros H V. constructor; [exact V|]. apply Forall_forall. intros p Hp. apply in_adel in Hp. revert p Hp. setoid_rewrite Forall_forall in H. intros p Hp. apply H, Hp. Qed.
Lemma times_del m k : times_ok m -> times_ok (adel k m).
Proof. intros H. apply Forall_forall. intros p Hp. apply in_adel in Hp. setoid_rewrite Forall_forall in H. apply H, Hp. Qed.
Lemma Forall_upd {A} (P : A -> Prop) l i x : Forall P l -> P x -> Forall P (upd l i x).
Proof. revert i. induction l as [|y t IH]; intros i F X; [constructor|]. inversion F; subst. destruct i; constructor; auto. Qed.

Lemma ts_index_ok t : vtime t -> ts_index t = Ok (Z.to_nat (tm_t t - 1)).
Proof. intros (V & _). unfold ts_index. destruct (Z.leb_spec 1 (tm_t t)); [reflexivity|lia]. Qed.
Lemma slot_map_ok d h t : df_rel d h -> vtime t -> slot_map d (Z.to_nat (tm_t t - 1)) = Ok (nth (Z.to_nat (tm_t t - 1)) d []) /\ times_ok (nth (Z.to_nat (tm_t t - 1)) d []) /\ (Z.to_nat (tm_t t - 1) < length d)%nat.
Proof.
  intros (L & T & _) (V & _). assert (HL : (Z.to_nat (tm_t t - 1) < length d)%nat) by lia. unfold slot_map. rewrite (nth_error_nth' d [] HL). split; [reflexivity|]. split; [|assumption].
  setoid_rewrite Forall_forall in T. apply T. apply nth_In. assumption.
Qed.

(** One map entry changes, everything else is as before. *)
Lemma rel_upd d h e t m' : df_rel d h -> vtime t -> times_ok m' ->
  (forall ssi, entry_ok (aget ssi m') (coll (tm_t t) ssi (h ++ [e]))) ->
  (forall ts ssi, ts <> tm_t t -> df_about ts ssi e = false) ->
  df_rel (upd d (Z.to_nat (tm_t t - 1)) m') (h ++ [e]).
Proof.
  intros (L & T & R) V TM HM HO. split; [now rewrite upd_length|]. split; [now apply Forall_upd|].
  intros ts ssi Hts. rewrite nth_upd. destruct V as (V & _).
  destruct (Z.eq_dec ts (tm_t t)) as [->|N].
  - rewrite Nat.eqb_refl. destruct (Nat.ltb_spec (Z.to_nat (tm_t t - 1)) (length d)); [|lia]. cbn [andb]. apply HM.
  - destruct (Nat.eqb_spec (Z.to_nat (ts - 1)) (Z.to_nat (tm_t t - 1))); [lia|]. cbn [andb].
    rewrite coll_snoc. unfold cstep. rewrite HO by assumption. cbn [negb]. now apply R.
Qed.
Lemma about_other ts ssi ssi' t : negb ((tm_t t =? ts)%Z && (ssi' =? ssi)) = negb ((tm_t t =? ts)%Z && (ssi =? ssi')).
Proof. now rewrite (N.eqb_sym ssi ssi'). Qed.

Lemma first_step d h src t a aie : df_rel d h -> vtime t -> wf src ->
  exists d', insert_first src t a aie d = Ok (d', adv src (length (remaining src))) /\ df_rel d' (h ++ [DfStart t a aie src]).
Proof.
  intros R V W. unfold insert_first. rewrite ts_index_ok by assumption. cbn [bind]. destruct (slot_map_ok d h t R V) as (-> & TM & HL). cbn [bind].
  rewrite len_rem by assumption. cbn [bind]. destruct (holds_copy _ _ src holds_new W) as (b' & EC & HB). cbn [df_bits df_new]. rewrite EC. cbn [bind].
  eexists. split; [reflexivity|]. apply rel_upd; [assumption|assumption|apply times_set; [now apply times_del|exact V]| |].
  - intros ssi. rewrite aget_aset, aget_adel, coll_snoc. unfold cstep. cbn [df_about]. rewrite Z.eqb_refl. cbn [andb]. rewrite (N.eqb_sym (ad_ssi a)).
    destruct (N.eqb_spec ssi (ad_ssi a)); cbn [negb]; [|apply R; destruct V; assumption].
    eexists. split; [reflexivity|]. cbn [df_st df_addr df_aie df_last df_bits]. repeat (split; [reflexivity|]). split; [exact HB|exact V].
  - intros ts ssi N. cbn [df_about]. destruct (Z.eqb_spec (tm_t t) ts); [congruence|reflexivity].
Qed.

(** What the next-fragment step does, before knowing whether it is the last. *)
Definition nstep (c : cst) (t : tdma_time) (f : bitbuf) : cst :=
  match c with Some (a, aie, bits, last) => if 4096 <? N.of_nat (length bits + length (remaining f)) then None else Some (a, aie, bits ++ remaining f, t) | None => None end.
Lemma next_core d h src t ssi : df_rel d h -> vtime t -> wf src ->
  exists d' src', insert_next src ssi t d = Ok (d', src') /\ df_rel d' (h ++ [DfNext t ssi src]).
Proof.
  intros R V W. unfold insert_next. rewrite ts_index_ok by assumption. cbn [bind]. destruct (slot_map_ok d h t R V) as (-> & TM & HL). cbn [bind].
  set (i := Z.to_nat (tm_t t - 1)) in *. set (m := nth i d []) in *.
  assert (HO : forall ts s, ts <> tm_t t -> df_about ts s (DfNext t ssi src) = false).
  { intros ts s N. cbn [df_about]. destruct (Z.eqb_spec (tm_t t) ts); [congruence|reflexivity]. }
  assert (HE := proj2 (proj2 R) (tm_t t)). fold i m in HE.
  assert (Vt : (1 <= tm_t t <= 4)%Z) by (destruct V; assumption).
  assert (HK : forall s v, s <> ssi -> aget s v = aget s m -> entry_ok (aget s v) (coll (tm_t t) s (h ++ [DfNext t ssi src]))).
  { intros s v N E. rewrite E, coll_snoc. unfold cstep. cbn [df_about]. destruct (N.eqb_spec ssi s); [congruence|]. rewrite andb_false_r. cbn [negb]. now apply HE. }
  assert (HC : coll (tm_t t) ssi (h ++ [DfNext t ssi src]) = nstep (coll (tm_t t) ssi h) t src).
  { rewrite coll_snoc. unfold cstep. cbn [df_about]. rewrite Z.eqb_refl, N.eqb_refl. reflexivity. }
  assert (HSame : (aget ssi m = None \/ aget ssi m = Some df_new) -> coll (tm_t t) ssi h = None -> df_rel d (h ++ [DfNext t ssi src])).
  { intros HN EC. assert (E : d = upd d i m).
    { apply nth_ext with (d := []) (d' := []); [now rewrite upd_length|]. intros n Hn. rewrite nth_upd. destruct (Nat.eqb_spec n i); cbn [andb]; [|reflexivity].
      subst n. destruct (Nat.ltb_spec i (length d)); reflexivity. }
    rewrite E. apply rel_upd; [assumption|assumption|assumption| |assumption]. intros s. destruct (N.eq_dec s ssi) as [->|NS]; [|apply HK; auto].
    rewrite HC, EC. exact HN. }
  specialize (HE ssi Vt). destruct (coll (tm_t t) ssi h) as [[[[a aie] bits] last]|] eqn:EC; cbn [entry_ok] in HE.
  - destruct HE as (b & Eb & St & Ad & Ai & La & HB & Vl). rewrite Eb, St. cbn [df_is_active negb].
    rewrite (holds_len _ _ HB), len_rem by assumption. cbn [bind]. cbn [nstep] in HC. unfold DEFRAG_BUF_MAX_LEN.
    destruct (4096 <? N.of_nat (length bits + length (remaining src))).
    + eexists _, _. split; [reflexivity|]. apply rel_upd; [assumption|assumption|apply times_set; [assumption|exact vtime_default]| |assumption].
      intros s. destruct (N.eq_dec s ssi) as [->|NS]; [|apply HK; [assumption|rewrite aget_aset; now destruct (N.eqb_spec s ssi)]].
      rewrite HC, aget_aset, N.eqb_refl. right. reflexivity.
    + destruct (holds_copy _ _ src HB W) as (b' & ECo & HB'). rewrite ECo. cbn [bind].
      eexists _, _. split; [reflexivity|]. apply rel_upd; [assumption|assumption|apply times_set; [assumption|exact V]| |assumption].
      intros s. destruct (N.eq_dec s ssi) as [->|NS]; [|apply HK; [assumption|rewrite aget_aset; now destruct (N.eqb_spec s ssi)]].
      rewrite HC, aget_aset, N.eqb_refl. eexists. split; [reflexivity|]. cbn [df_st df_addr df_aie df_last df_bits]. split; [reflexivity|]. split; [exact Ad|]. split; [exact Ai|]. split; [reflexivity|]. split; [exact HB'|exact V].
  - destruct HE as [E|E]; rewrite E; cbn [df_is_active negb df_st df_new]; eexists _, _; (split; [reflexivity|]); apply HSame; auto.
Qed.

(** What is handed out at the end of an SDU. *)
Definition handed_out (o : option df_buf) (c : cst) : Prop :=
  match c with
  | Some (a, aie, bits, _) => exists b, o = Some b /\ df_addr b = a /\ df_aie b = aie /\ remaining (df_bits b) = bits /\ window (df_bits b) = bits /\ wf (df_bits b)
  | None => o = None \/ exists b, o = Some b /\ df_addr b = mk_addr 0 false SsiUnknown /\ df_frags b = 0%nat /\ window (df_bits b) = [] /\ remaining (df_bits b) = []
  end.
Lemma last_step d h src t ssi : df_rel d h -> vtime t -> wf src ->
  exists o d' src', insert_last src ssi t d = Ok (o, d', src') /\ df_rel d' (h ++ [DfEnd t ssi src]) /\ handed_out o (nstep (coll (tm_t t) ssi h) t src).
Proof.
  intros R V W. destruct (next_core d h src t ssi R V W) as (d1 & src1 & E1 & R1). unfold insert_last. rewrite E1. cbn [bind].
  rewrite ts_index_ok by assumption. cbn [bind]. destruct (slot_map_ok d1 _ t R1 V) as (-> & TM & HL). cbn [bind].
  set (i := Z.to_nat (tm_t t - 1)) in *. set (m := nth i d1 []) in *.
  assert (Vt : (1 <= tm_t t <= 4)%Z) by (destruct V; assumption).
  assert (HR : df_rel (upd d1 i (adel ssi m)) (h ++ [DfEnd t ssi src])).
  { destruct R1 as (L & T & R1). split; [now rewrite upd_length|]. split; [apply Forall_upd; [assumption|now apply times_del]|].
    intros ts s Hts. specialize (R1 ts s Hts). rewrite coll_snoc in R1 |- *. unfold cstep in R1 |- *. cbn [df_about] in *. rewrite nth_upd.
    destruct (Z.eqb_spec (tm_t t) ts) as [Ets|Ets].
    - subst ts. fold i in R1 |- *. rewrite Nat.eqb_refl. destruct (Nat.ltb_spec i (length d1)); [|lia]. cbn [andb] in *. rewrite aget_adel. fold m in R1.
      rewrite (N.eqb_sym s). destruct (N.eqb_spec ssi s); cbn [negb] in *; [now left|assumption].
    - cbn [andb negb] in *. destruct (Nat.eqb_spec (Z.to_nat (ts - 1)) i); [subst i; lia|]. exact R1. }
  assert (HC : coll (tm_t t) ssi (h ++ [DfNext t ssi src]) = nstep (coll (tm_t t) ssi h) t src).
  { rewrite coll_snoc. unfold cstep. cbn [df_about]. rewrite Z.eqb_refl, N.eqb_refl. reflexivity. }
  pose proof (proj2 (proj2 R1) (tm_t t) ssi Vt) as HE. fold i m in HE. rewrite HC in HE.
  assert (HSame : aget ssi m = None -> upd d1 i (adel ssi m) = d1 \/ True) by (right; exact I).
  destruct (nstep (coll (tm_t t) ssi h) t src) as [[[[a aie] bits] last]|]; cbn [entry_ok handed_out] in *.
  - destruct HE as (b & Eb & St & Ad & Ai & La & HB & Vl). rewrite Eb. destruct HB as (Wb & Ab & Sb & Pb & Eb').
    unfold set_raw_pos. rewrite Sb. cbn [Nat.leb assert bind]. eexists _, _, _. split; [reflexivity|]. split; [exact HR|].
    eexists. split; [reflexivity|]. cbn [df_addr df_aie df_bits]. split; [exact Ad|]. split; [exact Ai|].
    assert (Ew : forall p, window (set_pos (df_bits b) p) = bits) by (intros p; rewrite <- Eb'; reflexivity).
    assert (Er : remaining (set_pos (df_bits b) 0) = bits) by (rewrite <- Eb'; unfold remaining, window, set_pos; cbn [bytes bpos bend bstart]; now rewrite Sb).
    split; [exact Er|]. split; [apply Ew|].
    destruct Wb as (Wb1 & Wb2 & Wb3 & Wb4). unfold wf, set_pos, cap in *. cbn [bytes bstart bpos bend] in *. split; [lia|]. split; [lia|]. split; [lia|assumption].
  - destruct HE as [E|E]; rewrite E.
    + eexists _, _, _. split; [reflexivity|]. split; [|left; reflexivity].
      destruct R1 as (L & T & R1). split; [assumption|]. split; [assumption|]. intros ts s Hts. pose proof (R1 ts s Hts) as R2. rewrite coll_snoc in R2 |- *. unfold cstep in R2 |- *. cbn [df_about] in *.
      destruct (Z.eqb_spec (tm_t t) ts) as [Ets|Ets]; cbn [andb negb] in *; [|assumption]. destruct (N.eqb_spec ssi s) as [Es|Es]; cbn [negb] in *; [|assumption].
      subst ts s. fold i m. left. exact E.
    + cbn [df_bits df_new]. eexists _, _, _. split; [reflexivity|]. split; [exact HR|]. right. eexists. split; [reflexivity|]. cbn [df_addr df_frags df_bits]. repeat split.
Qed.

Lemma age_entry t b : vtime t -> vtime (df_last b) -> exists b', df_age t b = Ok b' /\ vtime (df_last b').
Proof.
  intros V VL. unfold df_age. destruct (df_is_inactive (df_st b)); [eauto|]. destruct (diff_spec t (df_last b) V VL) as (d & -> & _). cbn [bind].
  destruct (DEFRAG_TS_BEFORE_TIMEOUT <? d)%Z; eexists; (split; [reflexivity|]); [exact vtime_default|exact VL].
Qed.
Definition aged (t : tdma_time) (b : df_buf) : df_buf := match df_age t b with Ok b' => b' | _ => b end.
Lemma age_map t m : vtime t -> times_ok m -> amapm (df_age t) m = Ok (map (fun p => (fst p, aged t (snd p))) m) /\ times_ok (map (fun p => (fst p, aged t (snd p))) m).
Proof.
  intros V T. setoid_rewrite Forall_forall in T. split.
  - apply amapm_ok. intros k v [H|H]; [apply aget_in in H|]; specialize (T _ H); cbn [snd] in T; destruct (age_entry t v V T) as (b' & E & _); unfold aged; now rewrite E.
  - apply Forall_forall. intros p Hp. apply in_map_iff in Hp. destruct Hp as (q & <- & Hq). cbn [snd]. specialize (T _ Hq). cbn in T.
    destruct (age_entry t (snd q) V T) as (b' & E & Vb). unfold aged. now rewrite E.
Qed.
Lemma age_all t d : vtime t -> Forall times_ok d ->
  age_buffers t d = Ok (map (map (fun p => (fst p, aged t (snd p)))) d) /\ Forall times_ok (map (map (fun p => (fst p, aged t (snd p)))) d).
Proof.
  intros V. induction d as [|m r IH]; intros T; [split; [reflexivity|constructor]|]. inversion T as [|? ? Tm Tr]; subst. destruct (IH Tr) as (E & F). destruct (age_map t m V Tm) as (E1 & F1).
  cbn [age_buffers]. rewrite E1. cbn [bind]. rewrite E. split; [reflexivity|]. constructor; assumption.
Qed.
Lemma tick_step d h t : df_rel d h -> vtime t -> exists d', age_buffers t d = Ok d' /\ df_rel d' (h ++ [DfTick t]).
Proof.
  intros (L & T & R) V. destruct (age_all t d V T) as (E & F). eexists. split; [exact E|]. split; [now rewrite map_length|]. split; [assumption|].
  intros ts ssi Hts.
  assert (EM : aget ssi (nth (Z.to_nat (ts - 1)) (map (map (fun p => (fst p, aged t (snd p)))) d) []) = option_map (aged t) (aget ssi (nth (Z.to_nat (ts - 1)) d []))).
  { rewrite <- aget_map. f_equal. exact (map_nth (map (fun p => (fst p, aged t (snd p)))) d [] (Z.to_nat (ts - 1))). }
  refine (eq_ind_r (fun o => entry_ok o (coll ts ssi (h ++ [DfTick t]))) _ EM). clear EM.
  specialize (R ts ssi Hts). rewrite coll_snoc. unfold cstep. cbn [df_about negb].
  destruct (coll ts ssi h) as [[[[a aie] bits] last]|]; cbn [entry_ok] in *.
  - destruct R as (b & -> & St & Ad & Ai & La & HB & Vl). cbn [option_map]. unfold aged, df_age. rewrite St, La. cbn [df_is_inactive].
    destruct (diff_spec t last V Vl) as (dd & -> & _). cbn [bind]. unfold DEFRAG_TS_BEFORE_TIMEOUT. destruct (40 <? dd)%Z; [now right|].
    eexists. split; [reflexivity|]. repeat (split; [assumption|]). assumption.
  - destruct R as [->| ->]; [now left|right; reflexivity].
Qed.
Lemma reset_step d h : df_rel d h -> df_rel (defrag_reset d) (h ++ [DfReset]).
Proof.
  intros (L & T & R). unfold defrag_reset. split; [now rewrite map_length|]. split.
  - apply Forall_forall. intros m Hm. apply in_map_iff in Hm. destruct Hm as (_ & <- & _). constructor.
  - intros ts ssi Hts. rewrite coll_snoc. unfold cstep. cbn [df_about negb]. left.
    destruct (Nat.ltb_spec (Z.to_nat (ts - 1)) (length d)); [|lia].
    change (@nil (N * df_buf)) with ((fun _ : amap df_buf => @nil (N * df_buf)) []) at 2. rewrite map_nth. reflexivity.
Qed.

Lemma step_rel d h e : df_rel d h -> df_time_ok e -> exists d' o, df_step d e = Ok (d', o) /\ df_rel d' (h ++ [e]).
Proof.
  intros R TO. destruct e as [t a aie f|t s f|t s f|t|]; cbn [df_time_ok df_step] in *.
  - destruct TO as (V & W). destruct (first_step d h f t a aie R V W) as (d' & -> & R'). cbn [bind]. eauto.
  - destruct TO as (V & W). destruct (next_core d h f t s R V W) as (d' & src' & -> & R'). cbn [bind]. eauto.
  - destruct TO as (V & W). destruct (last_step d h f t s R V W) as (o & d' & src' & -> & R' & _). cbn [bind]. eauto.
  - destruct (tick_step d h t R TO) as (d' & -> & R'). cbn [bind]. eauto.
  - eexists _, _. split; [reflexivity|]. now apply reset_step.
Qed.
Lemma run_rel : forall h2 d h1, df_rel d h1 -> Forall df_time_ok h2 -> exists d', df_run d h2 = Ok d' /\ df_rel d' (h1 ++ h2).
Proof.
  induction h2 as [|e h2 IH]; intros d h1 R F; [exists d; rewrite app_nil_r; auto|]. inversion F as [|? ? Fe Fr]; subst.
  destruct (step_rel d h1 e R Fe) as (d1 & o & E & R1). cbn [df_run]. rewrite E. cbn [bind]. destruct (IH d1 _ R1 Fr) as (d' & E2 & R2).
  exists d'. split; [assumption|]. rewrite <- app_assoc in R2. exact R2.
Qed.
Lemma new_rel : df_rel defrag_new [].
Proof.
  split; [reflexivity|]. split; [repeat constructor|]. intros ts ssi H. left. unfold defrag_new.
  destruct (Z.to_nat (ts - 1)) as [|[|[|[|n]]]]; try reflexivity. destruct n; reflexivity.
Qed.

(** ** Top-level statements *)
Lemma reassembly_exact h t ssi f : Forall df_time_ok h -> vtime t -> wf f ->
  exists d o d' f', df_run defrag_new h = Ok d /\ insert_last f ssi t d = Ok (o, d', f') /\
    ((exists a aie bits last b, collected (tm_t t) ssi h a aie bits last /\ N.of_nat (length bits + length (remaining f)) <= 4096 /\
        o = Some b /\ df_addr b = a /\ remaining (df_bits b) = bits ++ remaining f) \/
     ((forall a aie bits last, collected (tm_t t) ssi h a aie bits last -> 4096 < N.of_nat (length bits + length (remaining f))) /\ empty_handout o)).
Proof.
  intros F V W. destruct (run_rel h defrag_new [] new_rel F) as (d & E & R). cbn [app] in R.
  destruct (last_step d h f t ssi R V W) as (o & d' & f' & E1 & _ & HO). exists d, o, d', f'. split; [assumption|]. split; [assumption|].
  destruct (coll (tm_t t) ssi h) as [[[[a aie] bits] last]|] eqn:EC; cbn [nstep] in HO.
  - destruct (N.ltb_spec 4096 (N.of_nat (length bits + length (remaining f)))) as [L|L]; cbn [handed_out] in HO.
    + right. split; [|exact HO]. intros a' aie' bits' last' HC. apply collected_coll in HC. assert (bits' = bits) as -> by congruence. assumption.
    + left. destruct HO as (b & Eo & Ea & _ & Er & _). exists a, aie, bits, last, b. split; [now apply collected_coll|]. auto.
  - right. split; [|exact HO]. intros a' aie' bits' last' HC. apply collected_coll in HC. congruence.
Qed.
Lemma collected_fun ts ssi h a aie bits last a' aie' bits' last' :
  collected ts ssi h a aie bits last -> collected ts ssi h a' aie' bits' last' -> a = a' /\ aie = aie' /\ bits = bits' /\ last = last'.
Proof. rewrite !collected_coll. intros H1 H2. rewrite H1 in H2. repeat split; congruence. Qed.

(** Other timeslots and other radios have no influence. *)
Lemma coll_filter ts ssi h : coll ts ssi (filter (df_about ts ssi) h) = coll ts ssi h.
Proof.
  induction h as [|e h IH] using rev_ind; [reflexivity|]. rewrite filter_app. cbn [filter]. rewrite coll_snoc. unfold cstep at 1.
  destruct (df_about ts ssi e) eqn:EA; cbn [negb].
  - rewrite coll_snoc, IH. unfold cstep. rewrite EA. reflexivity.
  - rewrite app_nil_r. exact IH.
Qed.
Lemma independence ts ssi h a aie bits last :
  collected ts ssi h a aie bits last <-> collected ts ssi (filter (df_about ts ssi) h) a aie bits last.
Proof. rewrite !collected_coll, coll_filter. reflexivity. Qed.
(** After a pause of more than 40 slots followed by a tick nothing is collected. *)
Lemma stale_gone ts ssi h a aie bits last t d : collected ts ssi h a aie bits last -> tdiff t last = Ok d -> (40 < d)%Z ->
  forall a' aie' bits' last', ~ collected ts ssi (h ++ [DfTick t]) a' aie' bits' last'.
Proof.
  rewrite collected_coll. intros HC HD HL a' aie' bits' last' H. apply collected_coll in H. rewrite coll_snoc in H. unfold cstep in H. cbn [df_about negb] in H.
  rewrite HC, HD in H. destruct (Z.ltb_spec 40 d); [discriminate|lia].
Qed.
(** The encryption flag that later fragments are checked against is the start's. *)
Lemma aie_exact h t ssi : Forall df_time_ok h -> vtime t ->
  exists d x, df_run defrag_new h = Ok d /\ get_aie_info ssi t d = Ok x /\
    (x = true <-> exists a bits last, collected (tm_t t) ssi h a true bits last).
Proof.
  intros F V. destruct (run_rel h defrag_new [] new_rel F) as (d & E & R). cbn [app] in R. pose proof (proj2 (proj2 R) (tm_t t) ssi (proj1 V)) as HE.
  unfold get_aie_info. rewrite ts_index_ok by assumption. cbn [bind]. destruct (slot_map_ok d h t R V) as (EM & _ & _).
  destruct (coll (tm_t t) ssi h) as [[[[a aie] bits] last]|] eqn:EC; cbn [entry_ok] in HE.
  - destruct HE as (b & Eb & St & Ad & Ai & _). exists d, aie. split; [assumption|]. rewrite EM. cbn [bind]. rewrite Eb, St. cbn [df_is_inactive]. split; [congruence|].
    split.
    + intros ->. exists a, bits, last. now apply collected_coll.
    + intros (a' & bits' & last' & HC). apply collected_coll in HC. congruence.
  - exists d, false. split; [assumption|]. rewrite EM. cbn [bind]. split; [destruct HE as [-> | ->]; reflexivity|]. split; [discriminate|].
    intros (a' & bits' & last' & HC). apply collected_coll in HC. congruence.
Qed.

(** After a timeout the end of the SDU still hands out an empty SDU with address zero. *)
Definition ghost_h : list df_event :=
  [DfStart (mk_time 1 1 1 0) (mk_addr 1234 false SsiIssi) false (mkbb [170] 0 0 8 false); DfTick (mk_time 4 11 1 0)].
Lemma ghost_delivery :
  Forall df_time_ok ghost_h /\ (forall a aie bits last, ~ collected 1 1234 ghost_h a aie bits last) /\
  exists d b d' f', df_run defrag_new ghost_h = Ok d /\
    insert_last (mkbb [85] 0 0 8 false) 1234 (mk_time 1 12 1 0) d = Ok (Some b, d', f') /\
    df_addr b = mk_addr 0 false SsiUnknown /\ window (df_bits b) = [].
Proof.
  split.
  - repeat constructor; cbn; try lia; try (unfold isbyte; lia).
  - split; [intros a aie bits last H; apply collected_coll in H; vm_compute in H; discriminate|].
    exists (match df_run defrag_new ghost_h with Ok d => d | _ => [] end).
    set (r := insert_last _ _ _ _).
    exists (match r with Ok (Some b, _, _) => b | _ => df_new end), (match r with Ok (_, d, _) => d | _ => [] end), (match r with Ok (_, _, f) => f | _ => bb_new 0 end).
    subst r. split; [vm_compute; reflexivity|]. split; [vm_compute; reflexivity|]. split; vm_compute; reflexivity.
Qed.
(** Nothing but a tick makes a reassembly stale: an end of any age completes it. *)
Definition late_h : list df_event := [DfStart (mk_time 1 1 1 0) (mk_addr 1234 false SsiIssi) false (mkbb [170] 0 0 8 false)].
Lemma late_delivery :
  Forall df_time_ok late_h /\ exists d b d' f', df_run defrag_new late_h = Ok d /\
    insert_last (mkbb [85] 0 0 8 false) 1234 (mk_time 1 1 30 0) d = Ok (Some b, d', f') /\
    df_addr b = mk_addr 1234 false SsiIssi /\ length (window (df_bits b)) = 16%nat.
Proof.
  split.
  - repeat constructor; cbn; try lia; try (unfold isbyte; lia).
  - exists (match df_run defrag_new late_h with Ok d => d | _ => [] end).
    set (r := insert_last _ _ _ _).
    exists (match r with Ok (Some b, _, _) => b | _ => df_new end), (match r with Ok (_, d, _) => d | _ => [] end), (match r with Ok (_, _, f) => f | _ => bb_new 0 end).
    subst r. split; [vm_compute; reflexivity|]. split; [vm_compute; reflexivity|]. split; vm_compute; reflexivity.
Qed.
