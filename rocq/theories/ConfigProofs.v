(** The configuration: proofs. *)
From Coq Require Import String Ascii QArith.
From Verif Require Import Base SsiRanges SsiRangesProofs MleBroadcast UmacPrecomps SlotSpec Config ConfigSpec.
From Verif Require Freqs FreqsProofs DlSlot.
Local Open Scope N_scope.

(** * Reading a table *)
Lemma look_in k t v : look k t = Some v -> In (k, v) t.
Proof. induction t as [|[x w] t IH]; cbn; [discriminate|]. destruct (String.eqb_spec x k) as [->|H]; [intros [= ->]; auto|auto]. Qed.
Lemma look_none k t : look k t = None -> absent t k.
Proof.
  induction t as [|[x w] t IH]; cbn; [intros _ v []|]. destruct (String.eqb_spec x k) as [->|H]; [discriminate|]. intros E v [[= A _]|I]; [now apply H|exact (IH E v I)].
Qed.
Lemma look_unique k t v : unique t -> In (k, v) t -> look k t = Some v.
Proof.
  unfold unique. induction t as [|[x w] t IH]; cbn; intros U []; inversion U; subst.
  - injection H as -> ->. now rewrite String.eqb_refl.
  - destruct (String.eqb_spec x k) as [->|]; [|auto]. exfalso. match goal with A : ~ In _ _ |- _ => apply A end. now apply in_map with (f := fst) in H.
Qed.
Section Reading.
Context {A : Type} (f : value -> option A) (is : value -> A -> Prop) (FI : forall v a, f v = Some a -> is v a).
Lemma need_spec k t a : need f k t = Ok a -> required is t k a.
Proof. unfold need. destruct (look k t) as [v|] eqn:L; [|discriminate]. destruct (f v) as [b|] eqn:F; [|discriminate]. intros [= ->]. exists v. split; [now apply look_in|auto]. Qed.
Lemma may_spec k t o : may f k t = Ok o -> optional is t k o.
Proof.
  unfold may. destruct (look k t) as [v|] eqn:L; [|intros [= <-]; now apply look_none]. destruct (f v) as [b|] eqn:F; [|discriminate]. cbn. intros [= <-]. exists v. split; [now apply look_in|auto].
Qed.
Lemma or_spec k t o d : may f k t = Ok o -> default d is t k (or o d).
Proof. intros E. apply may_spec in E. destruct o; [left; exact E|right; split; [exact E|reflexivity]]. Qed.
Lemma dflt_spec k t a d : dflt d f k t = Ok a -> default d is t k a.
Proof. unfold dflt. intros E. apply DlSlot.bind_inv in E. destruct E as (o & E & H). injection H as <-. exact (or_spec k t o d E). Qed.
End Reading.

(** * The types *)
Lemma uint_is lim v n : as_uint (Z.of_N lim) v = Some n -> is_num lim v n.
Proof. destruct v; try discriminate. cbn. destruct ((0 <=? z)%Z && (z <? Z.of_N lim)%Z) eqn:E; [|discriminate]. intros [= <-]. split; [f_equal|]; lia. Qed.
Lemma u8_is v n : u8 v = Some n -> is_num (2 ^ 8) v n. Proof. exact (uint_is (2 ^ 8) v n). Qed.
Lemma u16_is v n : u16 v = Some n -> is_num (2 ^ 16) v n. Proof. exact (uint_is (2 ^ 16) v n). Qed.
Lemma u32_is v n : u32 v = Some n -> is_num (2 ^ 32) v n. Proof. exact (uint_is (2 ^ 32) v n). Qed.
Lemma u64_is v n : u64 v = Some n -> is_num (2 ^ 63) v n. Proof. exact (uint_is (2 ^ 63) v n). Qed.
Lemma i16_is v z : as_i16 v = Some z -> is_int16 v z.
Proof. destruct v; try discriminate. cbn. destruct ((-32768 <=? z0)%Z && (z0 <? 32768)%Z) eqn:E; [|discriminate]. intros [= <-]. split; [reflexivity|lia]. Qed.
Lemma bool_is v b : as_bool v = Some b -> is_flag v b. Proof. destruct v; try discriminate. now intros [= <-]. Qed.
Lemma str_is v b : as_str v = Some b -> is_text v b. Proof. destruct v; try discriminate. now intros [= <-]. Qed.
Lemma flt_is v q : as_flt v = Some q -> is_real v q. Proof. destruct v; try discriminate; intros [= <-]; [right; now exists z|now left]. Qed.
Lemma all_is {A} (f : value -> option A) (is : value -> A -> Prop) (FI : forall v a, f v = Some a -> is v a) l : forall r, all_of f l = Some r -> Forall2 is l r.
Proof. induction l as [|v l IH]; cbn; intros r; [intros [= <-]; constructor|]. destruct (f v) eqn:F; [|discriminate]. destruct (all_of f l); [|discriminate]. intros [= <-]. constructor; auto. Qed.
Lemma vec_is {A} (f : value -> option A) (is : value -> A -> Prop) (FI : forall v a, f v = Some a -> is v a) v r : as_vec f v = Some r -> is_list is v r.
Proof. destruct v; try discriminate. cbn. intros H. exists l. split; [reflexivity|exact (all_is f is FI l r H)]. Qed.
Lemma pair_is v p : as_pair v = Some p -> is_range v p.
Proof.
  destruct v as [| | | | |[|a [|b [|]]]|]; try discriminate. unfold as_pair. destruct (as_uint (2 ^ 32) a) eqn:A; [|discriminate]. destruct (as_uint (2 ^ 32) b) eqn:B; [|discriminate].
  intros [= <-]. exists a, b. split; [reflexivity|]. split; [exact (u32_is _ _ A)|exact (u32_is _ _ B)].
Qed.
Lemma mode_is v m : as_mode v = Some m -> is_mode v m.
Proof.
  destruct v; try discriminate. unfold as_mode, is_mode. destruct (String.eqb_spec s "Bs") as [->|_]; [now intros [= <-]|]. destruct (String.eqb_spec s "Ms") as [->|_]; [now intros [= <-]|].
  destruct (String.eqb_spec s "Mon") as [->|_]; [now intros [= <-]|discriminate].
Qed.
Lemma backend_is v m : as_backend v = Some m -> is_backend v m.
Proof.
  destruct v; try discriminate. unfold as_backend, is_backend. destruct (String.eqb_spec s "Undefined") as [->|_]; [now intros [= <-]|]. destruct (String.eqb_spec s "None") as [->|_]; [now intros [= <-]|].
  destruct (String.eqb_spec s "SoapySdr") as [->|_]; [now intros [= <-]|discriminate].
Qed.

(** * The sections *)
Ltac next E := apply DlSlot.bind_inv in E; let x := fresh "x" in let H := fresh "H" in destruct E as (x & H & E).
Ltac told := first
  [ eapply (need_spec _ _ u16_is); eassumption | eapply (need_spec _ _ u8_is); eassumption | eapply (need_spec _ _ u32_is); eassumption
  | eapply (need_spec _ _ bool_is); eassumption | eapply (need_spec _ _ str_is); eassumption | eapply (need_spec _ _ i16_is); eassumption | eapply (need_spec _ _ flt_is); eassumption
  | eapply (need_spec _ _ mode_is); eassumption | eapply (need_spec _ _ backend_is); eassumption
  | eapply (may_spec _ _ u32_is); eassumption | eapply (may_spec _ _ u64_is); eassumption | eapply (may_spec _ _ str_is); eassumption | eapply (may_spec _ _ flt_is); eassumption
  | eapply (may_spec _ _ (vec_is _ _ u32_is)); eassumption
  | eapply (or_spec _ _ u8_is); eassumption | eapply (or_spec _ _ u16_is); eassumption | eapply (or_spec _ _ bool_is); eassumption | eapply (or_spec _ _ flt_is); eassumption
  | eapply (dflt_spec _ _ u8_is); eassumption | eapply (dflt_spec _ _ u16_is); eassumption | eapply (dflt_spec _ _ u64_is); eassumption | eapply (dflt_spec _ _ bool_is); eassumption ].
Lemma ranges_mean l s : ranges_from_tuples l = Ok s -> forall a, ranges_contains s a = true <-> exists p, In p l /\ fst p <= a < snd p.
Proof.
  intros E a. unfold ranges_from_tuples in E. rewrite (contains_exact _ s a E). split.
  - intros (r & I & R). apply in_map_iff in I. destruct I as (p & <- & I). exists p. split; [exact I|exact R].
  - intros (p & I & R). exists (mk_range (fst p) (snd p)). split; [apply in_map_iff; eauto|exact R].
Qed.
Lemma cell_read v d k : read_cell v = Ok d -> cell_to_cfg d = Ok k -> exists t, v = VTab t /\ cell_means t k /\ cd_extra d = extra cell_fields t.
Proof.
  intros E C. unfold read_cell in E. next E. destruct v as [| | | | | |t]; try discriminate. injection H as <-. exists t. split; [reflexivity|].
  do 29 next E. injection E as <-. split; [|reflexivity]. unfold cell_to_cfg in C. next C. injection C as <-.
  cbn [cd_carrier cd_band cd_offset cd_duplex cd_reverse cd_custom cd_la cd_ncb cd_late cd_class cd_reg cd_dereg cd_prio cd_nomin cd_migr cd_sws cd_voice cd_cmd cd_sndcp cd_aie cd_al cd_sys cd_colour cd_sharing cd_tsres cd_dtx cd_f18 cd_ranges cd_tz] in *.
  unfold cell_means. cbn [cs_ncb cs_late cs_carrier cs_band cs_offset cs_duplex cs_custom cs_reverse cs_la cs_class cs_services cs_sys cs_colour cs_sharing cs_tsres cs_dtx cs_f18 cs_ranges cs_tz bs_reg bs_dereg bs_prio bs_nomin bs_migr bs_sws bs_voice bs_cmd bs_sndcp bs_aie bs_al].
  do 28 (split; [told|]).
  match goal with H : may (as_vec as_pair) _ t = Ok ?o |- _ => pose proof (may_spec _ _ (vec_is _ _ pair_is) _ _ _ H) as M; destruct o as [l|] end.
  - exists l. split; [left; exact M|]. now apply ranges_mean.
  - exists []. split; [right; split; [exact M|reflexivity]|]. now apply ranges_mean.
Qed.
Lemma fields_in k l : existsb (String.eqb k) l = true <-> In k l.
Proof. rewrite existsb_exists. split; [intros (x & I & E); apply String.eqb_eq in E; now subst|intros I; exists k; split; [exact I|apply String.eqb_refl]]. Qed.
Lemma strip_app p : forall s r, strip p s = Some r -> s = append p r.
Proof. induction p as [|a p IH]; cbn; intros s r E; [now injection E as ->|]. destruct s as [|b s]; [discriminate|]. destruct (Ascii.eqb_spec a b) as [->|]; [|discriminate]. cbn. now rewrite (IH s r E). Qed.
Lemma app_strip p r : strip p (append p r) = Some r.
Proof. induction p as [|a p IH]; cbn; [reflexivity|]. now rewrite Ascii.eqb_refl. Qed.
Lemma put_in k g m n q : In (n, q) (put_gain k g m) -> (n, q) = (k, g) \/ In (n, q) m.
Proof. induction m as [|[x h] m IH]; cbn; [intuition|]. destruct (String.eqb_spec x k); cbn; intuition. Qed.
Lemma put_keys k g m n : In n (map fst (put_gain k g m)) <-> n = k \/ In n (map fst m).
Proof. induction m as [|[x h] m IH]; cbn; [intuition|]. destruct (String.eqb_spec x k) as [->|]; cbn; [intuition|]. rewrite IH. intuition. Qed.
Lemma put_nodup k g m : NoDup (map fst m) -> NoDup (map fst (put_gain k g m)).
Proof.
  induction m as [|[x h] m IH]; cbn; intros U; [repeat constructor; intros []|]. inversion U as [|? ? NI U']; subst. destruct (String.eqb_spec x k) as [->|]; cbn; [exact U|].
  constructor; [|auto]. rewrite put_keys. intuition.
Qed.
Lemma gains_spec p e : forall m0 m, gains p e m0 = Ok m -> NoDup (map fst m0) ->
  NoDup (map fst m) /\ (forall n q, In (n, q) m -> In (n, q) m0 \/ exists n', required is_real e (append p n') q /\ n = lowercase n') /\
  (forall n, In n (map fst m0) -> In n (map fst m)) /\ (forall n v, In (append p n, v) e -> In (lowercase n) (map fst m)).
Proof.
  induction e as [|[k v] e IH]; cbn [gains]; intros m0 m E U; [injection E as ->; split; [exact U|]; split; [auto|]; split; [auto|intros ? ? []]|].
  destruct (strip p k) as [name|] eqn:S.
  - apply strip_app in S. subst k. next E. destruct (as_flt v) as [g|] eqn:G; [|discriminate]. injection H as <-. destruct (IH _ _ E (put_nodup _ _ _ U)) as (A & B & C & D). split; [exact A|]. split; [|split].
    + intros n q I. destruct (B n q I) as [J|(n' & (w & J & R) & ->)].
      * apply put_in in J. destruct J as [[= -> ->]|J]; [|now left]. right. exists name. split; [|reflexivity]. exists v. split; [now left|now apply flt_is].
      * right. exists n'. split; [|reflexivity]. exists w. split; [now right|exact R].
    + intros n I. apply C, put_keys. now right.
    + intros n w [[= X _]|I]; [|exact (D n w I)]. apply C, put_keys. left. f_equal. pose proof (app_strip p n) as Y. rewrite <- X, app_strip in Y. now injection Y.
  - destruct (IH _ _ E U) as (A & B & C & D). split; [exact A|]. split; [|split; [exact C|]].
    + intros n q I. destruct (B n q I) as [J|(n' & (w & J & R) & ->)]; [now left|]. right. exists n'. split; [|reflexivity]. exists w. split; [now right|exact R].
    + intros n w [[= -> ->]|I]; [now rewrite app_strip in S|exact (D n w I)].
Qed.
Lemma gains_are p t m : (forall k, existsb (String.eqb k) soapy_fields = true -> strip p k = None) -> gains p (extra soapy_fields t) [] = Ok m -> gains_mean p t m.
Proof.
  intros F E. destruct (gains_spec p _ _ _ E (NoDup_nil _)) as (A & B & _ & D). split; [exact A|]. split.
  - intros n q I. destruct (B n q I) as [[]|(n' & (w & J & R) & ->)]. exists n'. split; [|reflexivity]. apply filter_In in J. exists w. split; [apply J|exact R].
  - intros n v I. assert (J : In (append p n, v) (extra soapy_fields t)).
    { apply filter_In. split; [exact I|]. cbn [fst]. destruct (existsb _ soapy_fields) eqn:X; [|reflexivity]. apply F in X. now rewrite app_strip in X. }
    pose proof (D n v J) as K. apply in_map_iff in K. destruct K as ([x q] & X & K). cbn in X. subst x. eauto.
Qed.
Lemma no_gain p : (forallb (fun k => match strip p k with None => true | _ => false end) soapy_fields = true) -> forall k, existsb (String.eqb k) soapy_fields = true -> strip p k = None.
Proof. intros H k X. apply fields_in in X. rewrite forallb_forall in H. specialize (H k X). now destruct (strip p k). Qed.
Lemma soapy_read v d s : read_soapy v = Ok d -> soapy_to_cfg d = Ok s -> exists t, v = VTab t /\ soapy_means t s /\ sd_extra d = extra soapy_fields t.
Proof.
  intros E C. unfold read_soapy in E. next E. destruct v as [| | | | | |t]; try discriminate. injection H as <-. exists t. split; [reflexivity|].
  do 9 next E. injection E as <-. split; [|reflexivity]. unfold soapy_to_cfg in C. next C. next C. injection C as <-.
  cbn [sd_rx_freq sd_tx_freq sd_ppm sd_device sd_rx_ant sd_tx_ant sd_rate sd_rx_ch sd_tx_ch sd_extra] in *. unfold soapy_means. cbn [so_ul so_dl so_ppm so_device so_rx_ant so_tx_ant so_fs so_rx_ch so_tx_ch so_rx_gains so_tx_gains].
  split; [apply gains_are; [apply no_gain; reflexivity|assumption]|]. split; [apply gains_are; [apply no_gain; reflexivity|assumption]|].
  do 2 (split; [told|]). split; [|repeat (split; [told|]); told].
  match goal with H : may as_flt "ppm_err" t = Ok ?o |- _ => exact (or_spec _ _ flt_is _ _ o 0%Q H) end.
Qed.
Lemma phy_read v d p : read_phy v = Ok d -> phy_to_cfg d = Ok p -> exists t, v = VTab t /\ phy_means t p /\ pd_extra d = extra phy_fields t /\
  match pd_soapy d with Some sd => exists st, section t "soapysdr" st /\ sd_extra sd = extra soapy_fields st | None => absent t "soapysdr" end.
Proof.
  intros E C. unfold read_phy in E. next E. destruct v as [| | | | | |t]; try discriminate. injection H as <-. exists t. split; [reflexivity|].
  do 6 next E. injection E as <-. unfold phy_to_cfg in C. next C. injection C as <-. cbn [pd_backend pd_dl_tx pd_ul_rx pd_ul_in pd_dl_in pd_soapy pd_extra] in *.
  assert (SO : match x5 with Some s => exists st sd, section t "soapysdr" st /\ soapy_means st s /\ x4 = Some sd /\ sd_extra sd = extra soapy_fields st | None => x4 = None /\ absent t "soapysdr" end).
  { unfold may_sub in H4. destruct (look "soapysdr" t) as [v|] eqn:L.
    - next H4. injection H4 as <-. next H5. injection H5 as <-. destruct (soapy_read v _ _ H6 H4) as (st & -> & M & X). exists st, x6. split; [now apply look_in|auto].
    - injection H4 as <-. injection H5 as <-. split; [reflexivity|now apply look_none]. }
  split; [|split; [reflexivity|]].
  - unfold phy_means. cbn [ph_backend ph_dl_tx ph_ul_rx ph_ul_in ph_dl_in ph_soapy]. do 5 (split; [told|]). destruct x5; [|tauto]. destruct SO as (st & sd & A & B & _). eauto.
  - destruct x5; [destruct SO as (st & sd & A & _ & -> & X); eauto|destruct SO as (-> & A); exact A].
Qed.
Lemma net_read v d : read_net v = Ok d -> exists t, v = VTab t /\ required (is_num (2 ^ 16)) t "mcc" (nd_mcc d) /\ required (is_num (2 ^ 16)) t "mnc" (nd_mnc d) /\ nd_extra d = extra net_fields t.
Proof.
  intros E. unfold read_net in E. next E. destruct v as [| | | | | |t]; try discriminate. injection H as <-. exists t. split; [reflexivity|]. do 2 next E. injection E as <-. cbn. split; [told|]. split; [told|reflexivity].
Qed.
Lemma brew_read v d : read_brew v = Ok d -> exists t, v = VTab t /\ brew_means t (brew_to_cfg d) /\ bd_extra d = extra brew_fields t.
Proof.
  intros E. unfold read_brew in E. next E. destruct v as [| | | | | |t]; try discriminate. injection H as <-. exists t. split; [reflexivity|]. do 9 next E. injection E as <-. split; [|reflexivity].
  unfold brew_means, brew_to_cfg. cbn [bd_host bd_port bd_tls bd_user bd_pass bd_delay bd_jitter bd_white bd_sds br_host br_port br_tls br_user br_pass br_delay br_jitter br_sds br_white].
  do 3 (split; [told|]). split; [eexists; split; [told|reflexivity]|]. split; [eexists; split; [told|reflexivity]|]. do 3 (split; [told|]). told.
Qed.
Lemma link_read v d l : read_link v = Ok d -> link_to_cfg d = Ok l -> exists t, v = VTab t /\ link_means t l /\ ld_extra d = extra link_fields t.
Proof.
  intros E C. unfold read_link in E. next E. destruct v as [| | | | | |t]; try discriminate. injection H as <-. exists t. split; [reflexivity|]. do 6 next E. injection E as <-. split; [|reflexivity].
  unfold link_to_cfg in C. cbn [ld_host ld_port ld_tls ld_ca ld_user ld_pass] in C. next C. next C. injection C as <-. unfold link_means. cbn [lk_host lk_port lk_tls lk_ca lk_cred].
  do 4 (split; [told|]). split.
  - intros N. unfold guard in H5. destruct x2; [|congruence]. now destruct x1.
  - pose proof (may_spec _ _ str_is _ _ _ H3) as U. pose proof (may_spec _ _ str_is _ _ _ H4) as P. destruct x3, x4; try discriminate; injection H6 as <-; split; assumption.
Qed.
Lemma sub_may {A B} (f : value -> res A) (g : A -> res B) (ok : tab -> B -> Prop) k d o r : may_sub f k d = Ok o ->
  (match o with Some l => c <- g l ;; Ok (Some c) | None => Ok None end) = Ok r ->
  (forall v a b, f v = Ok a -> g a = Ok b -> exists t, v = VTab t /\ ok t b) -> maybe ok d k r.
Proof.
  intros E C F. unfold may_sub in E. destruct (look k d) as [v|] eqn:L.
  - next E. injection E as <-. next C. injection C as <-. destruct (F v x x0 H H0) as (t & -> & M). exists t. split; [now apply look_in|exact M].
  - injection E as <-. injection C as <-. now apply look_none.
Qed.
Lemma settings d c : from_toml d = Ok c -> means d c.
Proof.
  intros E. unfold from_toml in E. next E. do 8 (next E). do 4 next E. injection E as <-. unfold read_root in H. do 9 next H. injection H as <-.
  cbn [rd_version rd_mode rd_log rd_phy rd_net rd_cell rd_brew rd_telemetry rd_command rd_extra] in *. unfold means. cbn [sk_mode sk_log sk_phy sk_mcc sk_mnc sk_cell sk_brew sk_telemetry sk_control].
  split. { unfold guard in H0. destruct (String.eqb_spec x12 "0.6") as [->|]; [told|discriminate]. }
  split; [told|]. split; [told|]. unfold need_sub in *.
  split. { destruct (look "phy_io" d) as [v|] eqn:L; [|discriminate]. destruct (phy_read v _ _ H15 H8) as (t & -> & M & _). exists t. split; [now apply look_in|exact M]. }
  split. { destruct (look "net_info" d) as [v|] eqn:L; [|discriminate]. destruct (net_read v _ H16) as (t & -> & M1 & M2 & _). exists t. split; [now apply look_in|auto]. }
  split. { destruct (look "cell_info" d) as [v|] eqn:L; [|discriminate]. destruct (cell_read v _ _ H17 H9) as (t & -> & M & _). exists t. split; [now apply look_in|exact M]. }
  split. { refine (sub_may _ (fun b => Ok (brew_to_cfg b)) _ _ _ _ _ H18 _ _); [now destruct x18|]. intros v a b F [= <-]. destruct (brew_read v a F) as (t & -> & M & _). eauto. }
  split; [refine (sub_may _ _ _ _ _ _ _ H19 H10 _)|refine (sub_may _ _ _ _ _ _ _ H20 H11 _)]; intros v a b F G; destruct (link_read v a b F G) as (t & -> & M & _); eauto.
Qed.

(** * Unknown settings *)
Lemma none_is t : none_extra t = true -> t = []. Proof. now destruct t. Qed.
Lemma guard_true b e u : guard b e = Ok u -> b = true. Proof. now destruct b. Qed.
Lemma schema_in (s : schema) k : In k (map (fun e => fst (fst e)) s) <-> exists kd rq, In (k, kd, rq) s.
Proof. rewrite in_map_iff. split; [intros ([[k' kd] rq] & <- & I); eauto|intros (kd & rq & I); exists (k, kd, rq); auto]. Qed.
Lemma extra_known s t : none_extra (extra (map (fun e => fst (fst e)) s) t) = true -> known s t.
Proof.
  intros E k v I. apply none_is in E. apply schema_in, fields_in. destruct (existsb (String.eqb k) (map (fun e => fst (fst e)) s)) eqn:X; [reflexivity|]. exfalso.
  assert (J : In (k, v) (extra (map (fun e => fst (fst e)) s) t)) by (apply filter_In; split; [exact I|cbn; now rewrite X]). now rewrite E in J.
Qed.
Lemma starts_gain k : starts "rx_gain_" k || starts "tx_gain_" k = true <-> gain_name k.
Proof.
  unfold starts, gain_name. split.
  - intros H. apply orb_true_iff in H. destruct H as [H|H].
    + destruct (strip "rx_gain_" k) as [r|] eqn:E; [|discriminate]. exists r. left. now apply strip_app.
    + destruct (strip "tx_gain_" k) as [r|] eqn:E; [|discriminate]. exists r. right. now apply strip_app.
  - intros (r & [-> | ->]); rewrite app_strip; [reflexivity|apply orb_true_r].
Qed.
Lemma section_look d k t : unique d -> section d k t -> look k d = Some (VTab t).
Proof. intros U I. now apply look_unique. Qed.
Lemma sub_extra {A} (f : value -> res A) (ex : A -> tab) (fields : list string) d k o t : unique d -> may_sub f k d = Ok o -> section d k t ->
  (match o with Some b => none_extra (ex b) | None => true end = true) -> (forall v a, f v = Ok a -> exists t, v = VTab t /\ ex a = extra fields t) -> none_extra (extra fields t) = true.
Proof.
  intros U E S G F. unfold may_sub in E. rewrite (section_look d k t U S) in E. next E. injection E as <-. destruct (F _ _ H) as (t' & [= <-] & X). now rewrite <- X.
Qed.
Lemma link_extra v a : read_link v = Ok a -> exists t, v = VTab t /\ ld_extra a = extra link_fields t.
Proof. intros E. unfold read_link in E. next E. destruct v as [| | | | | |t]; try discriminate. injection H as <-. exists t. split; [reflexivity|]. do 6 next E. now injection E as <-. Qed.
Lemma unknown_refused d c : parsed d -> from_toml d = Ok c -> all_known d.
Proof.
  intros (U & UP) E. unfold from_toml in E. next E. do 8 (next E). do 4 next E. injection E as <-. unfold read_root in H. do 9 next H. injection H as <-.
  cbn [rd_version rd_mode rd_log rd_phy rd_net rd_cell rd_brew rd_telemetry rd_command rd_extra] in *. unfold need_sub in *.
  repeat match goal with H : guard _ _ = Ok _ |- _ => apply guard_true in H end.
  split; [now apply extra_known|]. split.
  { intros t S. rewrite (section_look d _ t U S) in H15. destruct (phy_read _ _ _ H15 H8) as (t' & [= <-] & _ & X & SO). rewrite X in H2. split; [now apply extra_known|].
    intros s SS k v I. unfold soapy_extra_ok in H3. destruct (pd_soapy x15) as [sd|]; [|exfalso; exact (SO _ SS)]. destruct SO as (st & S2 & XS).
    pose proof (look_unique _ _ _ (UP t S) S2) as L1. pose proof (look_unique _ _ _ (UP t S) SS) as L2. rewrite L1 in L2. injection L2 as ->.
    destruct (existsb (String.eqb k) soapy_fields) eqn:X1. { right. apply fields_in in X1. change soapy_fields with (map (fun e => fst (fst e)) soapy_schema) in X1. now apply schema_in in X1. }
    left. apply starts_gain. destruct (starts "rx_gain_" k || starts "tx_gain_" k) eqn:X2; [reflexivity|]. exfalso. apply none_is in H3.
    assert (J : In (k, v) (filter (fun p => negb (starts "rx_gain_" (fst p) || starts "tx_gain_" (fst p))) (sd_extra sd))); [|now rewrite H3 in J].
    apply filter_In. split; [|cbn [fst]; now rewrite X2]. rewrite XS. apply filter_In. split; [exact I|cbn [fst]; now rewrite X1]. }
  split. { intros t S. rewrite (section_look d _ t U S) in H16. destruct (net_read _ _ H16) as (t' & [= <-] & _ & _ & X). rewrite X in H4. now apply extra_known. }
  split. { intros t S. rewrite (section_look d _ t U S) in H17. destruct (cell_read _ _ _ H17 H9) as (t' & [= <-] & _ & X). rewrite X in H5. now apply extra_known. }
  split. { intros t S. apply extra_known. refine (sub_extra read_brew bd_extra brew_fields d _ _ t U H18 S H6 _). intros v a F. destruct (brew_read v a F) as (t' & -> & _ & X). eauto. }
  intros t S. apply extra_known. exact (sub_extra read_link ld_extra link_fields d _ _ t U H19 S H7 link_extra).
Qed.

(** * Files in order are accepted *)
Lemma kind_num lim v : of_kind (KNum lim) v -> exists n, as_uint lim v = Some n.
Proof. intros (z & -> & R). cbn. replace ((0 <=? z)%Z && (z <? lim)%Z) with true by lia. eauto. Qed.
Lemma kind_i16 v : of_kind KInt16 v -> exists n, as_i16 v = Some n.
Proof. intros (z & -> & R). cbn. replace ((-32768 <=? z)%Z && (z <? 32768)%Z) with true by lia. eauto. Qed.
Lemma kind_flag v : of_kind KFlag v -> exists n, as_bool v = Some n. Proof. intros (b & ->). cbn. eauto. Qed.
Lemma kind_text v : of_kind KText v -> exists n, as_str v = Some n. Proof. intros (b & ->). cbn. eauto. Qed.
Lemma kind_real v : of_kind KReal v -> exists n, as_flt v = Some n. Proof. intros [(b & ->)|(b & ->)]; cbn; eauto. Qed.
Lemma kind_mode v : of_kind KMode v -> exists n, as_mode v = Some n.
Proof. intros [<-|[<-|[<-|[]]]]; eexists; reflexivity. Qed.
Lemma kind_backend v : of_kind KBackend v -> exists n, as_backend v = Some n.
Proof. intros [<-|[<-|[<-|[]]]]; eexists; reflexivity. Qed.
Lemma kind_all {A} (f : value -> option A) l : Forall (fun v => exists a, f v = Some a) l -> exists r, all_of f l = Some r.
Proof. induction 1 as [|v l (a & E) _ (r & R)]; cbn; [eauto|]. rewrite E, R. eauto. Qed.
Lemma kind_ssis v : of_kind KSsis v -> exists n, as_vec u32 v = Some n.
Proof. intros (l & -> & F). apply kind_all. refine (Forall_impl _ _ F). exact (kind_num (2 ^ 32)). Qed.
Lemma kind_ranges v : of_kind KRanges v -> exists n, as_vec as_pair v = Some n.
Proof.
  intros (l & -> & F). apply kind_all. refine (Forall_impl _ _ F). intros x (a & b & -> & A & B). destruct (kind_num _ _ A) as (m & EA). destruct (kind_num _ _ B) as (n & EB). cbn [as_pair]. rewrite EA, EB. eauto.
Qed.
(** a setting of a section in order can be read *)
Section InOrder.
Variables (s : schema) (t : tab).
Hypotheses (NS : NoDup (map (fun e => fst (fst e)) s)) (OK : forall k v, In (k, v) t -> forall kd rq, In (k, kd, rq) s -> of_kind kd v) (RQ : forall k kd, In (k, kd, true) s -> exists v, In (k, v) t).
Lemma need_ok {A} (f : value -> option A) k kd : In (k, kd, true) s -> (forall v, of_kind kd v -> exists a, f v = Some a) -> exists a, need f k t = Ok a.
Proof.
  intros I F. unfold need. destruct (look k t) as [v|] eqn:L; [|destruct (RQ k kd I) as (v & J); exfalso; exact (look_none _ _ L _ J)].
  destruct (F v) as (a & ->); [exact (OK k v (look_in _ _ _ L) kd true I)|]. cbn. eauto.
Qed.
Lemma may_ok {A} (f : value -> option A) k kd rq : In (k, kd, rq) s -> (forall v, of_kind kd v -> exists a, f v = Some a) -> exists a, may f k t = Ok a.
Proof.
  intros I F. unfold may. destruct (look k t) as [v|] eqn:L; [|eauto]. destruct (F v) as (a & ->); [exact (OK k v (look_in _ _ _ L) kd rq I)|]. cbn. eauto.
Qed.
Lemma dflt_ok {A} (d : A) (f : value -> option A) k kd rq : In (k, kd, rq) s -> (forall v, of_kind kd v -> exists a, f v = Some a) -> exists a, dflt d f k t = Ok a.
Proof. intros I F. unfold dflt. destruct (may_ok f k kd rq I F) as (o & ->). cbn. eauto. Qed.
End InOrder.
Lemma nodup_in {A B} (f : A -> B) l x y : NoDup (map f l) -> In x l -> In y l -> f x = f y -> x = y.
Proof.
  induction l as [|a l IH]; cbn; intros N X Y E; [contradiction|]. inversion N as [|? ? NI N']; subst. destruct X as [->|X], Y as [->|Y]; auto; exfalso; apply NI.
  - rewrite E. now apply in_map.
  - rewrite <- E. now apply in_map.
Qed.
Lemma order_ok s t : NoDup (map (fun e => fst (fst e)) s) -> in_order s t -> (forall k v, In (k, v) t -> forall kd rq, In (k, kd, rq) s -> of_kind kd v) /\ (forall k kd, In (k, kd, true) s -> exists v, In (k, v) t) /\ none_extra (extra (map (fun e => fst (fst e)) s) t) = true.
Proof.
  intros N (U & K & R). split; [|split; [exact R|]].
  - intros k v I kd rq J. destruct (K k v I) as (kd' & rq' & J' & O). assert (X : (k, kd, rq) = (k, kd', rq')) by (apply (nodup_in _ s _ _ N J J'); reflexivity). injection X as -> ->. exact O.
  - unfold extra. replace (filter _ t) with (@nil (string * value)); [reflexivity|]. symmetry. revert K. clear. induction t as [|[k v] t IH]; intros K; [reflexivity|]. cbn [filter fst].
    destruct (K k v) as (kd & rq & J & _); [now left|]. assert (X : existsb (String.eqb k) (map (fun e => fst (fst e)) s) = true) by (apply fields_in, schema_in; eauto). rewrite X. cbn. apply IH. intros k' v' I. apply K. now right.
Qed.

Ltac kinds := first [apply (kind_num (2 ^ 8)) | apply (kind_num (2 ^ 16)) | apply (kind_num (2 ^ 32)) | apply (kind_num (2 ^ 63)) | apply kind_i16 | apply kind_flag | apply kind_text | apply kind_real
  | apply kind_mode | apply kind_backend | apply kind_ssis | apply kind_ranges].
Ltac isin := cbn; repeat (first [left; reflexivity | right]).
Ltac reads t SC OK RQ :=
  match goal with
  | |- exists _, bind (need ?f ?k t) _ = _ /\ _ => let x := fresh "x" in let X := fresh "X" in
      edestruct (need_ok SC t OK RQ f k) as (x & X); [isin|intros ?; kinds|]; rewrite X; cbn [bind]
  | |- exists _, bind (may ?f ?k t) _ = _ /\ _ => let x := fresh "x" in let X := fresh "X" in
      edestruct (may_ok SC t OK f k) as (x & X); [isin|intros ?; kinds|]; rewrite X; cbn [bind]
  | |- exists _, bind (dflt ?d ?f ?k t) _ = _ /\ _ => let x := fresh "x" in let X := fresh "X" in
      edestruct (dflt_ok SC t OK d f k) as (x & X); [isin|intros ?; kinds|]; rewrite X; cbn [bind]
  end.
Ltac nodups := repeat (constructor; [cbn; intuition discriminate|]); constructor.
Lemma net_total t : in_order net_schema t -> exists d, read_net (VTab t) = Ok d /\ none_extra (nd_extra d) = true.
Proof.
  intros O. destruct (order_ok net_schema t) as (OK & RQ & X); [cbn; nodups|exact O|]. unfold read_net. cbn [as_tab ok_or bind]. do 2 reads t net_schema OK RQ. eexists. split; [reflexivity|exact X].
Qed.
Lemma brew_total t : in_order brew_schema t -> exists d, read_brew (VTab t) = Ok d /\ none_extra (bd_extra d) = true.
Proof.
  intros O. destruct (order_ok brew_schema t) as (OK & RQ & X); [cbn; nodups|exact O|]. unfold read_brew. cbn [as_tab ok_or bind]. do 9 reads t brew_schema OK RQ. eexists. split; [reflexivity|exact X].
Qed.
Lemma pair_lt_ranges l : Forall (fun p : N * N => fst p < snd p) l -> ForallOrdPairs (fun p q : N * N => snd p <= fst q \/ snd q <= fst p) l -> exists s, ranges_from_tuples l = Ok s.
Proof.
  intros F P. unfold ranges_from_tuples. apply from_vec_accepts.
  - intros r I. apply in_map_iff in I. destruct I as (p & <- & I). rewrite Forall_forall in F. exact (F p I).
  - induction P as [|p l PL _ IH]; [constructor|]. inversion F as [|? ? FP FL]; subst. cbn [map]. constructor; [|exact (IH FL)].
    rewrite Forall_forall in *. intros r I. apply in_map_iff in I. destruct I as (q & <- & I). apply disjoint_nonempty; [exact FP|exact (FL q I)|exact (PL q I)].
Qed.
Lemma cell_total t : in_order cell_schema t -> ranges_in_order t -> exists d, read_cell (VTab t) = Ok d /\ none_extra (cd_extra d) = true /\ exists k, cell_to_cfg d = Ok k.
Proof.
  intros O R. destruct (order_ok cell_schema t) as (OK & RQ & X); [cbn; nodups|exact O|]. unfold read_cell. cbn [as_tab ok_or bind]. do 29 reads t cell_schema OK RQ. eexists. split; [reflexivity|]. split; [exact X|].
  unfold cell_to_cfg. cbn [cd_ranges].
  match goal with H : may (as_vec as_pair) _ t = Ok ?o |- _ => pose proof (may_spec _ _ (vec_is _ _ pair_is) _ _ _ H) as M; destruct o as [l|] end.
  - destruct (R l M) as (F & P). destruct (pair_lt_ranges l F P) as (s & ->). cbn [bind]. eauto.
  - destruct (pair_lt_ranges [] (Forall_nil _) (FOP_nil _)) as (s & E). unfold ranges_from_tuples in E. cbn [map] in E. rewrite E. cbn [bind]. eauto.
Qed.
Lemma gains_total p e : (forall k v, In (k, v) e -> of_kind KReal v) -> forall m, exists r, gains p e m = Ok r.
Proof.
  induction e as [|[k v] e IH]; intros K m; cbn [gains]; [eauto|]. destruct (strip p k); [|apply IH; intros; eapply K; right; eassumption].
  destruct (kind_real v) as (q & ->); [eapply K; now left|]. cbn [unwrap bind]. apply IH. intros; eapply K; right; eassumption.
Qed.
Lemma soapy_total t : soapy_in_order t -> exists d, read_soapy (VTab t) = Ok d /\ soapy_extra_ok (Some d) = true /\ exists k, soapy_to_cfg d = Ok k.
Proof.
  intros (U & K & RQ). assert (G : forall k v, In (k, v) t -> existsb (String.eqb k) soapy_fields = false -> gain_name k /\ of_kind KReal v).
  { intros k v I X. destruct (K k v I) as [G|(kd & rq & J & _)]; [exact G|]. exfalso. assert (Y : existsb (String.eqb k) soapy_fields = true); [|congruence].
    apply fields_in. change soapy_fields with (map (fun e => fst (fst e)) soapy_schema). apply schema_in. eauto. }
  assert (OK : forall k v, In (k, v) t -> forall kd rq, In (k, kd, rq) soapy_schema -> of_kind kd v).
  { intros k v I kd rq J. destruct (K k v I) as [(g & _)|(kd' & rq' & J' & O)].
    - exfalso. apply starts_gain in g. assert (Y : In k soapy_fields) by (change soapy_fields with (map (fun e => fst (fst e)) soapy_schema); apply schema_in; eauto). apply fields_in in Y.
      pose proof (no_gain "rx_gain_" eq_refl k Y) as A. pose proof (no_gain "tx_gain_" eq_refl k Y) as B. unfold starts in g. rewrite A, B in g. discriminate.
    - assert (X : (k, kd, rq) = (k, kd', rq')) by (refine (nodup_in (fun e => fst (fst e)) soapy_schema _ _ _ J J' eq_refl); cbn; nodups). injection X as -> ->. exact O. }
  unfold read_soapy. cbn [as_tab ok_or bind]. do 9 reads t soapy_schema OK RQ. eexists. split; [reflexivity|].
  assert (E : forall k v, In (k, v) (extra soapy_fields t) -> gain_name k /\ of_kind KReal v).
  { intros k v I. apply filter_In in I. cbn [fst] in I. destruct I as (I & Y). apply negb_true_iff in Y. exact (G k v I Y). }
  split.
  - unfold soapy_extra_ok. cbn [sd_extra]. destruct (filter _ (extra soapy_fields t)) as [|[k v] r] eqn:F; [reflexivity|]. exfalso.
    assert (I : In (k, v) ((k, v) :: r)) by now left. rewrite <- F in I. apply filter_In in I. cbn [fst] in I. destruct I as (I & Y). apply negb_true_iff in Y. destruct (E k v I) as (g & _). apply starts_gain in g. congruence.
  - unfold soapy_to_cfg. cbn [sd_extra]. destruct (gains_total "rx_gain_" (extra soapy_fields t) (fun k v I => proj2 (E k v I)) []) as (a & ->).
    destruct (gains_total "tx_gain_" (extra soapy_fields t) (fun k v I => proj2 (E k v I)) []) as (b & ->). cbn [bind]. eauto.
Qed.
(** a sub-table of a table in order *)
Lemma tab_of s t k rq v : in_order s t -> NoDup (map (fun e => fst (fst e)) s) -> In (k, KTab, rq) s -> look k t = Some v -> exists x, v = VTab x /\ section t k x.
Proof.
  intros O N I L. destruct (order_ok s t N O) as (OK & _). destruct (OK k v (look_in _ _ _ L) _ _ I) as (x & ->). exists x. split; [reflexivity|exact (look_in _ _ _ L)].
Qed.
Lemma phy_total t : in_order phy_schema t -> (forall s, section t "soapysdr" s -> soapy_in_order s) ->
  exists d, read_phy (VTab t) = Ok d /\ none_extra (pd_extra d) = true /\ soapy_extra_ok (pd_soapy d) = true /\ exists k, phy_to_cfg d = Ok k.
Proof.
  intros O SO. assert (N : NoDup (map (fun e => fst (fst e)) phy_schema)) by (cbn; nodups). destruct (order_ok phy_schema t N O) as (OK & RQ & X). unfold read_phy. cbn [as_tab ok_or bind]. do 5 reads t phy_schema OK RQ.
  unfold may_sub. destruct (look "soapysdr" t) as [v|] eqn:L.
  - destruct (tab_of phy_schema t "soapysdr" false v O N) as (st & -> & SE); [isin|exact L|]. destruct (soapy_total st (SO st SE)) as (sd & E & XO & k & C). rewrite E. cbn [bind]. eexists. split; [reflexivity|]. split; [exact X|].
    cbn [pd_soapy]. split; [exact XO|]. unfold phy_to_cfg. cbn [pd_soapy]. rewrite C. cbn [bind]. eauto.
  - cbn [bind]. eexists. split; [reflexivity|]. split; [exact X|]. cbn [pd_soapy]. split; [reflexivity|]. unfold phy_to_cfg. cbn [pd_soapy bind]. eauto.
Qed.
Lemma link_total t : link_in_order t -> exists d, read_link (VTab t) = Ok d /\ none_extra (ld_extra d) = true /\ exists k, link_to_cfg d = Ok k.
Proof.
  intros (O & CA & UP). destruct (order_ok link_schema t) as (OK & RQ & X); [cbn; nodups|exact O|]. unfold read_link. cbn [as_tab ok_or bind]. do 6 reads t link_schema OK RQ. eexists. split; [reflexivity|]. split; [exact X|].
  unfold link_to_cfg. cbn [ld_ca ld_tls ld_user ld_pass].
  match goal with H : may as_str "ca_cert" t = Ok ?o, T : dflt false as_bool "use_tls" t = Ok ?b |- _ =>
    assert (G : guard (negb (match o with Some _ => true | None => false end && negb b)) EInconsistency = Ok tt) end.
  { destruct x2 as [ca|]; [|reflexivity]. pose proof (may_spec _ _ str_is _ _ _ X3) as (v & I & _). assert (T : In ("use_tls"%string, VBool true) t) by (apply CA; eauto).
    destruct O as (U & _). unfold dflt, may in X2. rewrite (look_unique _ _ _ U T) in X2. injection X2 as <-. reflexivity. }
  rewrite G. cbn [bind]. pose proof (may_spec _ _ str_is _ _ _ X4) as U. pose proof (may_spec _ _ str_is _ _ _ X5) as P. destruct x3, x4; cbn [bind]; [eauto| | |eauto]; exfalso.
  - destruct U as (v & I & _). destruct UP as (UP & _). destruct (UP (ex_intro _ v I)) as (w & J). exact (P w J).
  - destruct P as (v & I & _). destruct UP as (_ & UP). destruct (UP (ex_intro _ v I)) as (w & J). exact (U w J).
Qed.
Lemma link_sub d k rq : in_order root_schema d -> In (k, KTab, rq) root_schema -> (forall t, section d k t -> link_in_order t) ->
  exists o, may_sub read_link k d = Ok o /\ match o with Some l => none_extra (ld_extra l) | None => true end = true /\
    exists r, match o with Some l => c <- link_to_cfg l ;; Ok (Some c) | None => Ok None end = Ok r.
Proof.
  intros O I LO. unfold may_sub. destruct (look k d) as [v|] eqn:L; [|exists None; eauto].
  destruct (tab_of root_schema d k rq v O) as (t & -> & SE); [cbn; nodups|exact I|exact L|]. destruct (link_total t (LO t SE)) as (l & -> & X & c & C). cbn [bind]. exists (Some l). split; [reflexivity|]. split; [exact X|]. rewrite C. cbn [bind]. eauto.
Qed.
Lemma need_tab d k : in_order root_schema d -> In (k, KTab, true) root_schema -> exists t, section d k t /\ look k d = Some (VTab t).
Proof.
  intros O I. destruct (order_ok root_schema d) as (OK & RQ & _); [cbn; nodups|exact O|]. destruct (RQ k _ I) as (v & J). destruct (OK k v J _ _ I) as (t & ->). exists t. split; [exact J|]. destruct O as (U & _). now apply look_unique.
Qed.
Lemma accepted d : file_in_order d -> exists c, from_toml d = Ok c.
Proof.
  intros (O & V & PH & NE & CE & BR & TE & CO). assert (N : NoDup (map (fun e => fst (fst e)) root_schema)) by (cbn; nodups). destruct (order_ok root_schema d N O) as (OK & RQ & X).
  destruct (need_tab d "phy_io" O) as (tp & SP & LP); [isin|]. destruct (PH tp SP) as (PO & SO). destruct (phy_total tp PO SO) as (pd & EP & XP & XS & p & CP).
  destruct (need_tab d "net_info" O) as (tn & SN & LN); [isin|]. destruct (net_total tn (NE tn SN)) as (nd & EN & XN).
  destruct (need_tab d "cell_info" O) as (tc & SC & LC); [isin|]. destruct (CE tc SC) as (COO & CR). destruct (cell_total tc COO CR) as (cd & EC & XC & k & CC).
  destruct (link_sub d "telemetry" false O) as (ot & ET & XT & rt & CT); [isin|exact TE|]. destruct (link_sub d "command" false O) as (oc & EO & XO & rc & CCO); [isin|exact CO|].
  assert (B : exists o, may_sub read_brew "brew" d = Ok o /\ match o with Some b => none_extra (bd_extra b) | None => true end = true).
  { unfold may_sub. destruct (look "brew" d) as [v|] eqn:L; [|exists None; auto]. destruct (tab_of root_schema d "brew" false v O N) as (t & -> & SE); [isin|exact L|]. destruct (brew_total t (BR t SE)) as (b & -> & XB). exists (Some b). auto. }
  destruct B as (ob & EB & XB).
  destruct (need_ok root_schema d OK RQ as_mode "stack_mode" KMode) as (m & EM); [isin|intros ?; kinds|]. destruct (may_ok root_schema d OK as_str "debug_log" KText false) as (lg & EL); [isin|intros ?; kinds|].
  assert (EV : need as_str "config_version" d = Ok "0.6"%string). { unfold need. destruct O as (U & _). now rewrite (look_unique _ _ _ U V). }
  assert (RR : read_root d = Ok (mk_root_dto "0.6" m lg pd nd cd ob ot oc (extra root_fields d))).
  { unfold read_root, need_sub. rewrite EV, EM, EL, LP, LN, LC, EP, EN, EC, EB, ET, EO. reflexivity. }
  unfold from_toml. rewrite RR. cbn [bind rd_version rd_mode rd_log rd_phy rd_net rd_cell rd_brew rd_telemetry rd_command rd_extra]. change (map _ root_schema) with root_fields in X.
  rewrite String.eqb_refl, X, XP, XS, XN, XC, XB, XT, CP, CC, CT, CCO. cbn [bind guard]. eexists. reflexivity.
Qed.
