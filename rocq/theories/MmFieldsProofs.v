(** Step lemmas for type 3 and type 4 elements with structured content, and the fields of the MM PDUs. *)
From Verif Require Import Base BitsLib BitBuffer BitBufferProofs BitBufferOps Codec CodecProofs TypedFields TypedFieldsProofs
  CmceFields CmceFieldsProofs CmceProofs MmFields MmPdus PduSpec PduProofs MmSpec.
Open Scope N_scope.

(** ** Structured type 3 *)
Lemma t3s_some {T} id (f : T -> list bool) v : t3s id f (Some v) = type3_bits id (f v).
Proof. reflexivity. Qed.
Lemma fit3s_elim {T} (f : T -> list bool) ok v : fit3s f ok (Some v) = true -> ok v = true /\ N.of_nat (length (f v)) < 2048.
Proof. cbn [fit3s]. intros H. apply andb_true_iff in H. destruct H as [A B]. apply fit_lt in B. auto. Qed.
Lemma w_t3s {T} id (f : T -> list bool) ok (w : T -> wr) o k L :
  id < 16 -> (forall v, ok v = true -> writes (w v) (f v)) -> fit3s f ok o = true -> writes k L ->
  writes (write_type3_struct true o id w >> k) (t3s id f o ++ L).
Proof.
  intros A W B C. apply writes_then; [|exact C]. destruct o as [v|].
  - apply fit3s_elim in B. destruct B as (B1 & B2). rewrite t3s_some. apply write_type3_struct_spec; [exact A|exact B2|now apply W].
  - apply writes_ret.
Qed.
Lemma r_t3s {A T} F id (f : T -> list bool) ok (r : reader T) o (k : option T -> reader A) L x :
  id < 16 -> (forall v, ok v = true -> reads r (f v) v) -> fit3s f ok o = true -> readsF F (k o) L x ->
  (forall rest, F rest -> no_elem id (L ++ rest)) ->
  readsF F (rbind (parse_type3_struct true id r) k) (t3s id f o ++ L) x.
Proof.
  intros H R B C Fo. destruct o as [v|].
  - apply fit3s_elim in B. destruct B as (B1 & B2). eapply readsF_bind'; [|exact C].
    rewrite t3s_some. apply parse_type3_struct_spec; [exact H|exact B2|now apply R].
  - apply (readsF_bind (no_elem id) F _ k [] L None x); [apply parse_type3_absent|exact C|exact Fo].
Qed.
Lemma no_elem_t3s {T} i j (f : T -> list bool) o L : j < 16 -> i <> j -> no_elem i L -> no_elem i (t3s j f o ++ L).
Proof. intros A B C. destruct o as [e|]; [|exact C]. rewrite t3s_some. now apply no_elem_type3. Qed.

(** ** Structured type 4 *)
Lemma t4s_some {T} id (f : T -> list bool) l : t4s id f (Some l) = type4_bits id (length l) (concat (map f l)).
Proof. unfold t4s, type4_bits. rewrite flat_map_concat_map. cbn [app]. rewrite <- app_assoc. reflexivity. Qed.
Lemma fit4s_elim {T} (f : T -> list bool) ok l : fit4s f ok (Some l) = true ->
  Forall (fun v => ok v = true) l /\ N.of_nat (6 + length (concat (map f l))) < 2048 /\ N.of_nat (length l) < 64.
Proof.
  cbn [fit4s]. rewrite !andb_true_iff, flat_map_concat_map. intros [[A B] C]. split; [|split].
  - apply Forall_forall. rewrite forallb_forall in A. exact A.
  - exact (fit_lt _ _ B).
  - exact (fit_lt _ _ C).
Qed.
Lemma Forall2_map_r {T} (P : T -> list bool -> Prop) (Q : T -> Prop) f l :
  (forall v, Q v -> P v (f v)) -> Forall Q l -> Forall2 P l (map f l).
Proof. intros H. induction 1; constructor; auto. Qed.
Lemma w_t4s {T} id (f : T -> list bool) ok (w : T -> wr) o k L :
  id < 16 -> (forall v, ok v = true -> writes (w v) (f v)) -> fit4s f ok o = true -> writes k L ->
  writes (write_type4_struct true o id w >> k) (t4s id f o ++ L).
Proof.
  intros A W B C. apply writes_then; [|exact C]. destruct o as [l|].
  - apply fit4s_elim in B. destruct B as (B1 & B2 & B3). rewrite t4s_some.
    apply write_type4_struct_spec; [exact A|exact B2|exact B3|].
    exact (Forall2_map_r (fun v l => writes (w v) l) (fun v => ok v = true) f l W B1).
  - apply writes_ret.
Qed.
Lemma r_t4s {A T} F id (f : T -> list bool) ok (r : reader T) o (k : option (list T) -> reader A) L x :
  id < 16 -> (forall v, ok v = true -> reads r (f v) v) -> fit4s f ok o = true -> readsF F (k o) L x ->
  (forall rest, F rest -> no_elem id (L ++ rest)) ->
  readsF F (rbind (parse_type4_struct true id r) k) (t4s id f o ++ L) x.
Proof.
  intros H R B C Fo. destruct o as [l|].
  - apply fit4s_elim in B. destruct B as (B1 & B2 & B3). eapply readsF_bind'; [|exact C].
    rewrite t4s_some. apply parse_type4_struct_spec; [exact H|exact B2|exact B3|].
    exact (Forall2_map_r (fun v l => reads r l v) (fun v => ok v = true) f l R B1).
  - apply (readsF_bind (no_elem id) F _ k [] L None x); [apply parse_type4_absent|exact C|exact Fo].
Qed.
Lemma no_elem_t4s {T} i j (f : T -> list bool) o L : j < 16 -> i <> j -> no_elem i L -> no_elem i (t4s j f o ++ L).
Proof. intros A B C. destruct o as [e|]; [|exact C]. rewrite t4s_some. now apply no_elem_type4. Qed.

(** ** Type 4 elements of unspecified content *)
Lemma t4_some id e : t4 id (Some e) = type4_bits id (t4_elems e) (bits_of (t4_len e) (t4_data e)).
Proof. unfold t4, type4_bits. cbn [app]. rewrite <- app_assoc, bits_of_length. reflexivity. Qed.
Lemma fit4_elim id e : fit4 id (Some e) = true ->
  t4_id e = id /\ (t4_len e <= 64)%nat /\ N.of_nat (t4_elems e) < 64 /\ t4_data e < 2 ^ N.of_nat (t4_len e).
Proof.
  unfold fit4. rewrite !andb_true_iff. intros [[[A B] C] D]. apply N.eqb_eq in A. apply Nat.leb_le in B. apply fit_lt in C, D. auto.
Qed.
Lemma w_t4_none id o k L :
  o = None -> writes k L -> writes (write_type4_todo true o id >> k) (t4 id o ++ L).
Proof. intros ->. apply (writes_then wret k [] L). apply writes_ret. Qed.
Lemma parse_type4_generic_present id e : id < 16 -> fit4 id (Some e) = true -> reads (parse_type4_generic true id) (t4 id (Some e)) (Some e).
Proof.
  intros Hid B. apply fit4_elim in B. destruct B as (B1 & B2 & B3 & B4). rewrite t4_some.
  unfold parse_type4_generic, type4_bits. cbn [negb]. rewrite app_assoc.
  assert (length (bits_of (t4_len e) (t4_data e)) = t4_len e) as Le by apply bits_of_length.
  eapply reads_bind; [apply parse_type4_header_spec; [exact Hid| |exact B3]|].
  { rewrite Le. lia. }
  cbn iota. rewrite Le. replace (64 <? t4_len e)%nat with false by (symmetry; apply Nat.ltb_ge; exact B2).
  rewrite <- (app_nil_r (bits_of _ _)). eapply reads_bind; [apply reads_field; [exact B2|exact B4]|].
  apply (reads_bind0 _ _ _ tt); [apply reads_ret|]. destruct e as [i l n d]. cbn in B1. subst i. apply reads_ret.
Qed.
Lemma r_t4 {A} F id o (k : option type4_generic -> reader A) L x :
  id < 16 -> fit4 id o = true -> readsF F (k o) L x -> (forall rest, F rest -> no_elem id (L ++ rest)) ->
  readsF F (rbind (parse_type4_generic true id) k) (t4 id o ++ L) x.
Proof.
  intros H B C Fo. destruct o as [e|].
  - eapply readsF_bind'; [|exact C]. now apply parse_type4_generic_present.
  - apply (readsF_bind (no_elem id) F _ k [] L None x); [apply parse_type4_generic_absent|exact C|exact Fo].
Qed.
Lemma no_elem_t4 i j o L : j < 16 -> i <> j -> no_elem i L -> no_elem i (t4 j o ++ L).
Proof. intros A B C. destruct o as [e|]; [|exact C]. rewrite t4_some. now apply no_elem_type4. Qed.

(** o-bit clear *)
Lemma r_absent3s {A T} F id (r : reader T) (k : option T -> reader A) L x : readsF F (k None) L x -> readsF F (rbind (parse_type3_struct false id r) k) L x.
Proof. apply r_retl. Qed.
Lemma r_absent4s {A T} F id (r : reader T) (k : option (list T) -> reader A) L x : readsF F (k None) L x -> readsF F (rbind (parse_type4_struct false id r) k) L x.
Proof. apply r_retl. Qed.
Lemma r_absent4 {A} F id (k : option type4_generic -> reader A) L x : readsF F (k None) L x -> readsF F (rbind (parse_type4_generic false id) k) L x.
Proof. apply r_retl. Qed.

(** ** Fields *)
Lemma w_assert c k L : c = true -> writes k L -> writes (wassert c >> k) L.
Proof. intros -> B. apply (writes_then wret k [] L); [apply writes_ret|exact B]. Qed.
Lemma w_lift {T} (o : res T) a (k : T -> wr) L : o = Ok a -> writes (k a) L -> writes (wlift o k) L.
Proof. intros -> H. exact H. Qed.
Lemma w_cond_last n o : (n <= 64)%nat -> fito n o = true -> writes (wopt o (fun v => wfield v n)) (cond n o).
Proof.
  intros A B. destruct o as [v|]; cbn [wopt cond].
  - apply writes_field; [exact A|now apply fit_lt].
  - apply writes_ret.
Qed.
Lemma fit1_flag (x : bool) : flag x = num 1 (N.b2n x).
Proof. destruct x; reflexivity. Qed.

Lemma gid_addr s : some (address_type (some (gid_gssi s)) (some (gid_address_extension s)) (some (gid_vgssi s))) = true ->
  exists t, address_type (some (gid_gssi s)) (some (gid_address_extension s)) (some (gid_vgssi s)) = Some t /\ gid_address_type s = Ok t /\
    fit 2 t = true /\ ((t =? 0) || (t =? 1) || (t =? 3))%bool = some (gid_gssi s) /\
    ((t =? 1) || (t =? 3))%bool = some (gid_address_extension s) /\ ((t =? 2) || (t =? 3))%bool = some (gid_vgssi s).
Proof.
  unfold gid_address_type. destruct s as [a d [g|] [e|] [v|]]; cbn; intros H; try discriminate;
    (eexists; split; [reflexivity|]; repeat split; reflexivity).
Qed.
Lemma giu_addr s : match address_type (some (giu_gssi s)) (some (giu_address_extension s)) (some (giu_vgssi s)) with Some t => t <? 3 | None => false end = true ->
  exists t, address_type (some (giu_gssi s)) (some (giu_address_extension s)) (some (giu_vgssi s)) = Some t /\ giu_address_type s = Ok t /\
    fit 2 t = true /\ ((t =? 0) || (t =? 1))%bool = some (giu_gssi s) /\
    (t =? 1) = some (giu_address_extension s) /\ (t =? 2) = some (giu_vgssi s).
Proof.
  unfold giu_address_type. destruct s as [a d [g|] [e|] [v|]]; cbn; intros H; try discriminate;
    (eexists; split; [reflexivity|]; repeat split; reflexivity).
Qed.

Lemma gid_writes s : gid_valid s = true -> writes (gid_to_bitbuf s) (gid_bits s).
Proof.
  unfold gid_valid, gid_to_bitbuf, gid_bits, address_bits. rewrite !andb_true_iff. intros [[[[[[V1 V2] V3] V4] V5] V6] V7].
  destruct (gid_addr s V4) as (t & E1 & E2 & E3 & _). rewrite E1. clear V4 E1.
  apply w_assert; [rewrite !some_is_some; exact V1|].
  destruct (gid_attachment s) as [a|], (gid_detachment s) as [d|]; try discriminate V1; cbn [is_some wopt fits_with] in *.
  - apply andb_true_iff in V2. destruct V2 as [V2 V2']. rewrite <- !app_assoc, (fit1_flag false).
    apply w_num; [lia|reflexivity|]. rewrite (app_assoc (num 2 _)). apply writes_then.
    { unfold gia_to_bitbuf. apply w_num; [lia|exact V2|]. rewrite <- (app_nil_r (num 3 _)). unfold num. rewrite app_nil_r.
      apply writes_field; [lia|now apply fit_lt]. }
    apply writes_then0; [apply writes_ret|]. apply (w_lift _ _ _ _ E2). cbn [cond].
    apply (w_num 2); [lia|exact E3|]. apply w_cond; [lia|exact V5|]. apply w_cond; [lia|exact V6|]. apply w_cond_last; [lia|assumption].
  - rewrite <- !app_assoc, (fit1_flag true). apply w_num; [lia|reflexivity|].
    apply writes_then0; [apply writes_ret|].
    cbn [cond]. apply (w_num 2); [lia|exact V3|]. apply (w_lift _ _ _ _ E2).
    apply (w_num 2); [lia|exact E3|]. apply w_cond; [lia|exact V5|]. apply w_cond; [lia|exact V6|]. apply w_cond_last; [lia|assumption].
Qed.
Lemma giu_writes s : giu_valid s = true -> writes (giu_to_bitbuf s) (giu_bits s).
Proof.
  unfold giu_valid, giu_to_bitbuf, giu_bits, address_bits. rewrite !andb_true_iff. intros [[[[[[V1 V2] V3] V4] V5] V6] V7].
  destruct (giu_addr s V4) as (t & E1 & E2 & E3 & _). rewrite E1. clear V4 E1.
  apply w_assert; [rewrite !some_is_some; exact V1|].
  destruct (giu_class_of_usage s) as [a|], (giu_detachment s) as [d|]; try discriminate V1; cbn [is_some wopt fito] in *.
  - rewrite <- !app_assoc, (fit1_flag false).
    apply w_num; [lia|reflexivity|]. apply (w_num 3); [lia|exact V2|].
    apply writes_then0; [apply writes_ret|]. apply (w_lift _ _ _ _ E2). cbn [cond].
    apply (w_num 2); [lia|exact E3|]. apply w_cond; [lia|exact V5|]. apply w_cond; [lia|exact V6|]. apply w_cond_last; [lia|assumption].
  - rewrite <- !app_assoc, (fit1_flag true). apply w_num; [lia|reflexivity|].
    apply writes_then0; [apply writes_ret|].
    cbn [cond]. apply (w_num 2); [lia|exact V3|]. apply (w_lift _ _ _ _ E2).
    apply (w_num 2); [lia|exact E3|]. apply w_cond; [lia|exact V5|]. apply w_cond; [lia|exact V6|]. apply w_cond_last; [lia|assumption].
Qed.
Lemma gid_reads s : gid_valid s = true -> reads gid_from_bitbuf (gid_bits s) s.
Proof.
  unfold gid_valid, gid_from_bitbuf, gid_bits, address_bits. rewrite !andb_true_iff. intros [[[[[[V1 V2] V3] V4] V5] V6] V7].
  destruct (gid_addr s V4) as (t & E1 & _ & E3 & E4 & E5 & E6). rewrite E1. clear V4 E1. cbn [cond].
  apply readsF_reads. destruct s as [a d g e v]. cbn [gid_attachment gid_detachment gid_gssi gid_address_extension gid_vgssi] in *.
  destruct a as [a|], d as [d|]; try discriminate V1; cbn [fits_with] in *.
  - apply andb_true_iff in V2. destruct V2 as [V2 V2']. rewrite <- !app_assoc, (fit1_flag false).
    apply r_num; [lia|reflexivity|]. rewrite (app_assoc (num 2 _)). apply (r_sub _ _ (Some a)).
    { change (N.b2n false =? 0) with true. cbn [ropt]. rewrite <- (app_nil_r (num 2 _ ++ _)). eapply reads_bind; [|apply reads_ret].
      unfold gia_from_bitbuf. apply readsF_reads. apply r_num; [lia|exact V2|]. rewrite <- (app_nil_r (num 3 _)). apply r_num; [lia|exact V2'|].
      destruct a as [p q]. apply reads_readsF, r_done. reflexivity. }
    change (N.b2n false =? 1) with false. apply r_retl.
    apply (r_num _ 2); [lia|exact E3|]. rewrite <- (app_nil_r (cond 24 v)).
    apply r_cond; [lia|exact E4|exact V5|]. apply r_cond; [lia|exact E5|exact V6|]. apply r_cond; [lia|exact E6|exact V7|].
    apply reads_readsF, r_done. reflexivity.
  - rewrite <- !app_assoc, (fit1_flag true). apply r_num; [lia|reflexivity|].
    change (N.b2n true =? 0) with false. apply r_retl.
    apply (r_cond _ _ 2 (Some d)); [lia|reflexivity|exact V3|].
    apply (r_num _ 2); [lia|exact E3|]. rewrite <- (app_nil_r (cond 24 v)).
    apply r_cond; [lia|exact E4|exact V5|]. apply r_cond; [lia|exact E5|exact V6|]. apply r_cond; [lia|exact E6|exact V7|].
    apply reads_readsF, r_done. reflexivity.
Qed.
Lemma giu_reads s : giu_valid s = true -> reads giu_from_bitbuf (giu_bits s) s.
Proof.
  unfold giu_valid, giu_from_bitbuf, giu_bits, address_bits. rewrite !andb_true_iff. intros [[[[[[V1 V2] V3] V4] V5] V6] V7].
  destruct (giu_addr s V4) as (t & E1 & _ & E3 & E4 & E5 & E6). rewrite E1. clear V4 E1. cbn [cond].
  apply readsF_reads. destruct s as [a d g e v]. cbn [giu_class_of_usage giu_detachment giu_gssi giu_address_extension giu_vgssi] in *.
  destruct a as [a|], d as [d|]; try discriminate V1; cbn [fits_with] in *.
  - rewrite <- !app_assoc, (fit1_flag false).
    apply r_num; [lia|reflexivity|]. apply (r_cond _ _ 3 (Some a)); [lia|reflexivity|exact V2|].
    change (N.b2n false =? 1) with false. apply r_retl.
    apply (r_num _ 2); [lia|exact E3|]. rewrite <- (app_nil_r (cond 24 v)).
    apply r_cond; [lia|exact E4|exact V5|]. apply r_cond; [lia|exact E5|exact V6|]. apply r_cond; [lia|exact E6|exact V7|].
    apply reads_readsF, r_done. reflexivity.
  - rewrite <- !app_assoc, (fit1_flag true). apply r_num; [lia|reflexivity|].
    change (N.b2n true =? 0) with false. apply r_retl.
    apply (r_cond _ _ 2 (Some d)); [lia|reflexivity|exact V3|].
    apply (r_num _ 2); [lia|exact E3|]. rewrite <- (app_nil_r (cond 24 v)).
    apply r_cond; [lia|exact E4|exact V5|]. apply r_cond; [lia|exact E5|exact V6|]. apply r_cond; [lia|exact E6|exact V7|].
    apply reads_readsF, r_done. reflexivity.
Qed.

Lemma gila_writes s : gila_valid s = true -> writes (gila_to_bitbuf s) (gila_bits s).
Proof.
  unfold gila_valid, gila_to_bitbuf, gila_bits. intros V. apply andb_true_iff in V. destruct V as [V1 V2]. cbv zeta.
  apply w_num; [lia|exact V1|]. apply w_num; [lia|reflexivity|].
  apply w_options; [cbn [existsb]; unfold id; now rewrite some_is_some, orb_false_r|]. intros E. rewrite E.
  apply (w_t4s _ _ gid_valid); [reflexivity|exact gid_writes|exact V2|exact w_mbit0].
Qed.
Lemma gila_reads s : gila_valid s = true -> reads gila_from_bitbuf (gila_bits s) s.
Proof.
  unfold gila_valid, gila_from_bitbuf, gila_bits. intros V. apply andb_true_iff in V. destruct V as [V1 V2]. apply readsF_reads.
  apply r_num; [lia|exact V1|]. apply (r_flag _ false). apply r_obit.
  - intros _. apply (r_t4s _ _ _ gid_valid); [reflexivity|exact gid_reads|exact V2| |intros rest _; apply no_elem_stop].
    apply r_trailing. destruct s. apply reads_readsF, r_done. reflexivity.
  - intros H. inversion H. destruct s as [a d]. cbn [gila_downlink] in *. destruct d; [discriminate|].
    apply r_absent4s, r_trailing_absent, reads_readsF, r_done. reflexivity.
Qed.
Lemma gild_writes s : gild_valid s = true -> writes (gild_to_bitbuf s) (gild_bits s).
Proof.
  unfold gild_valid, gild_to_bitbuf, gild_bits. intros V. apply andb_true_iff in V. destruct V as [V1 V2]. cbv zeta.
  apply w_num; [lia|reflexivity|]. apply w_num; [lia|exact V1|].
  apply w_options; [cbn [existsb]; unfold id; now rewrite some_is_some, orb_false_r|]. intros E. rewrite E.
  apply (w_t4s _ _ giu_valid); [reflexivity|exact giu_writes|exact V2|exact w_mbit0].
Qed.
Lemma gild_reads s : gild_valid s = true -> reads gild_from_bitbuf (gild_bits s) s.
Proof.
  unfold gild_valid, gild_from_bitbuf, gild_bits. intros V. apply andb_true_iff in V. destruct V as [V1 V2]. apply readsF_reads.
  apply r_num; [lia|reflexivity|]. apply r_guard; [reflexivity|]. apply r_num; [lia|exact V1|]. apply r_obit.
  - intros _. apply (r_t4s _ _ _ giu_valid); [reflexivity|exact giu_reads|exact V2| |intros rest _; apply no_elem_stop].
    apply r_trailing. destruct s. apply reads_readsF, r_done. reflexivity.
  - intros H. inversion H. destruct s as [a d]. cbn [gild_uplink] in *. destruct d; [discriminate|].
    apply r_absent4s, r_trailing_absent, reads_readsF, r_done. reflexivity.
Qed.
