(** Proofs about frequency derivation. *)
From Coq Require Import ZArith Lia.
From Verif Require Import Base Freqs.
Local Open Scope Z_scope.

Definition valid_offset (o : Z) : Prop := o = 0 \/ o = 6250 \/ o = -6250 \/ o = 12500.
(** The nominal downlink frequency in Hz *)
Definition nominal_dl (band carrier offset : Z) : Z := 100000000 * band + 25000 * carrier + offset.

Lemma from_components_ok band carrier offset rev dup custom f : 0 <= band -> 0 <= carrier ->
  freq_from_components band carrier offset rev dup custom = Ok f ->
  0 <= band <= 8 /\ 0 <= carrier < 4000 /\ valid_offset offset /\
  fi_band f = band /\ fi_carrier f = carrier /\ fi_offset f = offset /\ fi_reverse f = rev /\ fi_duplex_id f = dup /\
  (forall c, custom = Some c -> fi_duplex_val f = c) /\
  (custom = None -> get_default_duplex_spacing band dup = Ok (Some (fi_duplex_val f))).
Proof.
  intros Hb Hc. unfold freq_from_components, assert, bind. destruct (band <=? 8) eqn:E1; [|discriminate].
  destruct (carrier <? 4000) eqn:E2; [|discriminate]. destruct (_ || _) eqn:E3; [|discriminate].
  assert (valid_offset offset) as HO by (unfold valid_offset; lia).
  destruct custom as [c|].
  - intros H. injection H as <-. cbn [fi_band fi_carrier fi_offset fi_reverse fi_duplex_id fi_duplex_val].
    repeat (split; [first [lia|assumption|reflexivity]|]). split; [congruence|discriminate].
  - destruct (get_default_duplex_spacing band dup) as [[v|]|e|]; cbn [ok_or]; try discriminate.
    intros H. injection H as <-. cbn [fi_band fi_carrier fi_offset fi_reverse fi_duplex_id fi_duplex_val].
    repeat (split; [first [lia|assumption|reflexivity]|]). split; [discriminate|reflexivity].
Qed.

Lemma default_spacing_bound band dup v : 0 <= band <= 8 -> 0 <= dup -> get_default_duplex_spacing band dup = Ok (Some v) ->
  0 <= v <= 45000000.
Proof.
  intros Hb Hd. unfold get_default_duplex_spacing, assert, bind. destruct (dup <? 8) eqn:E; [|discriminate].
  assert (band = 0 \/ band = 1 \/ band = 2 \/ band = 3 \/ band = 4 \/ band = 5 \/ band = 6 \/ band = 7 \/ band = 8) as HB by lia.
  assert (dup = 0 \/ dup = 1 \/ dup = 2 \/ dup = 3 \/ dup = 4 \/ dup = 5 \/ dup = 6 \/ dup = 7) as HD by lia.
  repeat destruct HB as [->|HB]; try subst band; repeat destruct HD as [->|HD]; try subst dup; cbn; intros H; try discriminate; injection H as <-; lia.
Qed.

(** Downlink and uplink of an accepted configuration whose nominal frequencies are representable. *)
Lemma freqs_formula band carrier offset rev dup custom f : 0 <= band -> 0 <= carrier ->
  freq_from_components band carrier offset rev dup custom = Ok f ->
  0 <= nominal_dl band carrier offset ->
  let ul := nominal_dl band carrier offset + (if rev then fi_duplex_val f else - fi_duplex_val f) in
  get_freqs f = if u32_ok ul then Ok (nominal_dl band carrier offset, ul) else Panic.
Proof.
  intros Hb Hc HF Hn. destruct (from_components_ok _ _ _ _ _ _ _ Hb Hc HF) as (H1 & H2 & H3 & E1 & E2 & E3 & E4 & _).
  unfold get_freqs. rewrite E1, E2, E3, E4. unfold as_u32.
  assert (100000000 * band + carrier * 25000 + offset = nominal_dl band carrier offset) as -> by (unfold nominal_dl; lia).
  assert (nominal_dl band carrier offset < 4294967296) by (unfold nominal_dl, valid_offset in *; lia).
  rewrite Z.mod_small by lia. cbv zeta. destruct rev; cbn [negb].
  - unfold assert. destruct (u32_ok _); reflexivity.
  - rewrite Z.add_opp_r. unfold assert. destruct (u32_ok _); reflexivity.
Qed.

(** The nominal frequency is non-negative except for band 0, carrier 0, offset -6250. *)
Lemma nominal_nonneg band carrier offset : 0 <= band -> 0 <= carrier -> valid_offset offset ->
  (nominal_dl band carrier offset < 0 <-> band = 0 /\ carrier = 0 /\ offset = -6250).
Proof. unfold nominal_dl, valid_offset. lia. Qed.

(** With the standard table and a band of at least 100 MHz nothing panics. *)
Lemma standard_no_panic band carrier offset rev dup f : 1 <= band -> 0 <= carrier -> 0 <= dup ->
  freq_from_components band carrier offset rev dup None = Ok f ->
  get_freqs f = Ok (nominal_dl band carrier offset, nominal_dl band carrier offset + (if rev then fi_duplex_val f else - fi_duplex_val f)).
Proof.
  intros Hb Hc Hd HF. assert (0 <= band) as Hb0 by lia.
  destruct (from_components_ok _ _ _ _ _ _ _ Hb0 Hc HF) as (H1 & H2 & H3 & _ & _ & _ & _ & _ & _ & HS).
  specialize (HS eq_refl). pose proof (default_spacing_bound _ _ _ H1 Hd HS) as HB.
  assert (0 <= nominal_dl band carrier offset) as Hn by (unfold nominal_dl, valid_offset in *; lia).
  rewrite (freqs_formula _ _ _ _ _ _ _ Hb0 Hc HF Hn).
  replace (u32_ok _) with true; [reflexivity|]. symmetry. unfold u32_ok, nominal_dl, valid_offset in *. destruct rev; lia.
Qed.

Lemma nominal_inj b c o b' c' o' :
  0 <= c < 4000 -> 0 <= c' < 4000 -> valid_offset o -> valid_offset o' ->
  nominal_dl b c o = nominal_dl b' c' o' -> b = b' /\ c = c' /\ o = o'.
Proof. unfold nominal_dl, valid_offset. intros Hc Hc' Ho Ho' H. assert (o = o') by lia. subst. lia. Qed.

(** Distinct settings give distinct downlink frequencies, including the wrapped one. *)
Lemma freqs_injective b c o r d cu f b' c' o' r' d' cu' f' dl ul ul' :
  0 <= b -> 0 <= c -> 0 <= b' -> 0 <= c' ->
  freq_from_components b c o r d cu = Ok f -> freq_from_components b' c' o' r' d' cu' = Ok f' ->
  get_freqs f = Ok (dl, ul) -> get_freqs f' = Ok (dl, ul') -> b = b' /\ c = c' /\ o = o'.
Proof.
  intros Hb Hc Hb' Hc' HF HF' HG HG'.
  destruct (from_components_ok _ _ _ _ _ _ _ Hb Hc HF) as (H1 & H2 & H3 & E1 & E2 & E3 & E4 & _).
  destruct (from_components_ok _ _ _ _ _ _ _ Hb' Hc' HF') as (H1' & H2' & H3' & E1' & E2' & E3' & E4' & _).
  assert (forall g d0 u0, get_freqs g = Ok (d0, u0) -> d0 = as_u32 (100000000 * fi_band g + fi_carrier g * 25000 + fi_offset g)) as HD.
  { intros g d0 u0. unfold get_freqs, assert, bind. destruct (u32_ok _); [congruence|discriminate]. }
  pose proof (HD _ _ _ HG) as D1. pose proof (HD _ _ _ HG') as D2. rewrite D1 in D2. rewrite E1, E2, E3, E1', E2', E3' in D2.
  apply nominal_inj; try assumption. unfold as_u32, nominal_dl in *.
  assert (forall x, valid_offset x -> -6250 <= x <= 12500) as HV by (unfold valid_offset; intros; lia).
  pose proof (HV _ H3) as HV1. pose proof (HV _ H3') as HV2. clear HV HD.
  pose proof (Z.div_mod (100000000 * b + c * 25000 + o) 4294967296 ltac:(lia)).
  pose proof (Z.div_mod (100000000 * b' + c' * 25000 + o') 4294967296 ltac:(lia)).
  pose proof (Z.mod_pos_bound (100000000 * b + c * 25000 + o) 4294967296 ltac:(lia)).
  pose proof (Z.mod_pos_bound (100000000 * b' + c' * 25000 + o') 4294967296 ltac:(lia)). lia.
Qed.

Lemma offset_conversions :
  (forall i hz, freq_offset_id_to_hz i = Some hz <-> freq_offset_hz_to_id hz = Some i) /\
  (forall hz, (exists i, freq_offset_hz_to_id hz = Some i) <-> valid_offset hz) /\
  (forall i, (exists hz, freq_offset_id_to_hz i = Some hz) <-> 0 <= i <= 3).
Proof.
  unfold freq_offset_id_to_hz, freq_offset_hz_to_id, valid_offset. split; [intros i hz; split; intros H|split; [intros hz; split; intros H|intros i; split; intros H]].
  - destruct (Z.eqb_spec i 0); [subst; inversion H; reflexivity|]. destruct (Z.eqb_spec i 1); [subst; inversion H; reflexivity|].
    destruct (Z.eqb_spec i 2); [subst; inversion H; reflexivity|]. destruct (Z.eqb_spec i 3); [subst; inversion H; reflexivity|discriminate].
  - destruct (Z.eqb_spec hz 0); [subst; inversion H; reflexivity|]. destruct (Z.eqb_spec hz 6250); [subst; inversion H; reflexivity|].
    destruct (Z.eqb_spec hz (-6250)); [subst; inversion H; reflexivity|]. destruct (Z.eqb_spec hz 12500); [subst; inversion H; reflexivity|discriminate].
  - destruct H as (i & H). destruct (Z.eqb_spec hz 0); [auto|]. destruct (Z.eqb_spec hz 6250); [auto|].
    destruct (Z.eqb_spec hz (-6250)); [auto|]. destruct (Z.eqb_spec hz 12500); [auto|discriminate].
  - destruct H as [->|[->|[->| ->]]]; eexists; reflexivity.
  - destruct H as (hz & H). destruct (Z.eqb_spec i 0); [lia|]. destruct (Z.eqb_spec i 1); [lia|].
    destruct (Z.eqb_spec i 2); [lia|]. destruct (Z.eqb_spec i 3); [lia|discriminate].
  - destruct H as (H1 & H2). assert (i = 0 \/ i = 1 \/ i = 2 \/ i = 3) as [->|[->|[->| ->]]] by lia; eexists; reflexivity.
Qed.

(** Accepted settings whose frequencies are wrong or crash. *)
Lemma freqs_wrap : exists f, freq_from_components 0 0 (-6250) true 2 None = Ok f /\ get_freqs f = Ok (4294961046, 4294961046).
Proof. exists (mk_freq 0 0 (-6250) 2 0 true). split; vm_compute; reflexivity. Qed.
Lemma freqs_underflow : exists f, freq_from_components 0 0 0 false 0 (Some 10000000) = Ok f /\ get_freqs f = Panic.
Proof. exists (mk_freq 0 0 0 0 10000000 false). split; vm_compute; reflexivity. Qed.

(** The standard's duplex spacing table (ETSI TS 100 392-15, clause 6), as the list of defined
    entries (table index, band, spacing in kHz); bands 0..8. *)
Definition std_spacing : list (Z * Z * Z) :=
  [ (0,1,1600); (0,2,10000); (0,3,10000); (0,4,10000); (0,5,10000); (0,6,10000);
    (1,1,4500); (1,3,36000); (1,4,7000); (1,8,45000);
    (2,0,0); (2,1,0); (2,2,0); (2,3,0); (2,4,0); (2,5,0); (2,6,0); (2,7,0); (2,8,0);
    (3,3,8000); (3,4,8000); (3,8,18000);
    (4,3,18000); (4,4,5000); (4,6,30000); (4,7,30000); (5,4,9500) ].

Definition std_lookup (dup band : Z) : option Z :=
  match find (fun e => match e with (d, b, _) => (d =? dup) && (b =? band) end) std_spacing with
  | Some (_, _, k) => Some (1000 * k)
  | None => None
  end.

Definition all9 : list Z := [0;1;2;3;4;5;6;7;8].
Lemma spacing_table band dup : 0 <= band <= 8 -> 0 <= dup < 8 ->
  get_default_duplex_spacing band dup = Ok (std_lookup dup band).
Proof.
  intros Hb Hd.
  assert (forallb (fun b => forallb (fun d => match get_default_duplex_spacing b d, std_lookup d b with
            | Ok (Some x), Some y => x =? y | Ok None, None => true | _, _ => false end) [0;1;2;3;4;5;6;7]) all9 = true) as HT by (vm_compute; reflexivity).
  rewrite forallb_forall in HT. specialize (HT band ltac:(unfold all9; cbn [In]; lia)).
  rewrite forallb_forall in HT. specialize (HT dup ltac:(cbn [In]; lia)).
  destruct (get_default_duplex_spacing band dup) as [[x|]|e|], (std_lookup dup band) as [y|]; try discriminate HT; [|reflexivity].
  do 2 f_equal. lia.
Qed.

(** Which settings are accepted, and with what spacing. *)
Lemma spacing_used band carrier offset rev dup custom : 0 <= band <= 8 -> 0 <= carrier < 4000 -> valid_offset offset -> 0 <= dup < 8 ->
  freq_from_components band carrier offset rev dup custom =
  match custom, std_lookup dup band with
  | Some c, _ => Ok (mk_freq band carrier offset dup c rev)
  | None, Some s => Ok (mk_freq band carrier offset dup s rev)
  | None, None => Err EInvalidValue
  end.
Proof.
  intros Hb Hc Ho Hd. unfold freq_from_components. rewrite (spacing_table _ _ Hb Hd). unfold assert, bind.
  replace (band <=? 8) with true by lia. replace (carrier <? 4000) with true by lia.
  replace (_ || _) with true by (unfold valid_offset in Ho; lia).
  destruct custom; [reflexivity|]. destruct (std_lookup dup band); reflexivity.
Qed.
