(** Puncturing and the minimum distance of the punctured codes. *)
From Verif Require Import Base BitsLib BitBufferOps LmacSpec ArrCopy ArrCopyProofs ConvEnc Trellis.
Open Scope nat_scope.

(** ** Bit lists *)
Lemma xorl_length a : forall b, length a = length b -> length (xorl a b) = length a.
Proof. intros b H. unfold xorl. rewrite map_length, combine_length. lia. Qed.
Lemma nth_xorl a : forall b i, length a = length b -> nth i (xorl a b) false = xorb (nth i a false) (nth i b false).
Proof. induction a as [|x a IH]; intros [|y b] [|i] L; try discriminate; try reflexivity. cbn [nth]. apply (IH b i). now injection L. Qed.
Lemma hamming_xorl a : forall b, length a = length b -> hamming a b = weight (xorl a b).
Proof. induction a as [|x a IH]; intros [|y b] L; try discriminate; [reflexivity|]. unfold xorl. cbn [hamming combine map weight fst snd]. fold (xorl a b). rewrite (IH b) by (now injection L). destruct x, y; reflexivity. Qed.
Lemma hamming_triangle a : forall b y, length a = length b -> length a = length y -> (hamming a b <= hamming a y + hamming b y)%nat.
Proof.
  induction a as [|x a IH]; intros [|z b] [|w y] L1 L2; try discriminate; [cbn; lia|]. cbn [hamming]. specialize (IH b y ltac:(now injection L1) ltac:(now injection L2)). destruct x, z, w; cbn [Bool.eqb]; lia.
Qed.
Lemma hamming_refl a : hamming a a = 0%nat.
Proof. induction a as [|[] a IH]; cbn [hamming]; [reflexivity|exact IH|exact IH]. Qed.
Lemma hamming_0 a : forall b, length a = length b -> hamming a b = 0%nat -> a = b.
Proof. induction a as [|x a IH]; intros [|y b] L H; try discriminate; [reflexivity|]. cbn [hamming] in H. destruct (Bool.eqb x y) eqn:E; [|lia]. apply Bool.eqb_prop in E. subst. f_equal. apply IH; [now injection L|exact H]. Qed.
Lemma hamming_sym a : forall b, hamming a b = hamming b a.
Proof. induction a as [|x a IH]; intros [|y b]; try reflexivity. cbn [hamming]. rewrite IH. destruct x, y; reflexivity. Qed.
Lemma hamming_app a : forall b a' b', length a = length b -> hamming (a ++ a') (b ++ b') = (hamming a b + hamming a' b')%nat.
Proof. induction a as [|x a IH]; intros [|y b] a' b' L; try discriminate; [reflexivity|]. cbn [app hamming]. rewrite IH by (now injection L). lia. Qed.
Lemma xorl_zero a : forall b, length a = length b -> ~ In true (xorl a b) -> a = b.
Proof.
  induction a as [|x a IH]; intros [|y b] L H; try discriminate; [reflexivity|]. unfold xorl in H. cbn [combine map fst snd In] in H. f_equal; [destruct x, y; cbn in H; tauto|]. apply IH; [now injection L|]. intros Q. apply H. now right.
Qed.
Lemma mismatches_app a : forall r a' r', length a = length r -> mismatches (a ++ a') (r ++ r') = (mismatches a r + mismatches a' r')%nat.
Proof. induction a as [|x a IH]; intros [|[y|] r] a' r' L; try discriminate; [reflexivity| |]; cbn [app mismatches]; rewrite IH by (now injection L); lia. Qed.

(** ** Linearity *)
Lemma conv_bit_lin p m m' k : length m = length m' -> conv_bit p (xorl m m') k = xorb (conv_bit p m k) (conv_bit p m' k).
Proof.
  intros L. unfold conv_bit. change (seq 0 5) with [0; 1; 2; 3; 4]%nat. cbn [map fold_left]. rewrite !nth_xorl by assumption.
  generalize (nth 0 p false && (0 <=? k)%nat) (nth 1 p false && (1 <=? k)%nat) (nth 2 p false && (2 <=? k)%nat) (nth 3 p false && (3 <=? k)%nat) (nth 4 p false && (4 <=? k)%nat).
  assert (D : forall q a b, q && xorb a b = xorb (q && a) (q && b)) by (intros [] [] []; reflexivity). intros q0 q1 q2 q3 q4. rewrite !D.
  generalize (q0 && nth (k - 0) m false) (q1 && nth (k - 1) m false) (q2 && nth (k - 2) m false) (q3 && nth (k - 3) m false) (q4 && nth (k - 4) m false).
  generalize (q0 && nth (k - 0) m' false) (q1 && nth (k - 1) m' false) (q2 && nth (k - 2) m' false) (q3 && nth (k - 3) m' false) (q4 && nth (k - 4) m' false).
  intros [] [] [] [] [] [] [] [] [] []; reflexivity.
Qed.
Lemma xorl_app a b a' b' : length a = length b -> xorl (a ++ a') (b ++ b') = xorl a b ++ xorl a' b'.
Proof.
  revert b. induction a as [|x a IH]; intros [|y b] L; try discriminate; [reflexivity|]. unfold xorl in *. cbn [app combine map fst snd]. f_equal. apply IH. now injection L.
Qed.
Lemma conv_code_lin polys m m' : length m = length m' -> conv_code polys (xorl m m') = xorl (conv_code polys m) (conv_code polys m').
Proof.
  intros L. unfold conv_code. rewrite xorl_length, <- L by assumption. generalize (seq 0 (length m)). intros l. induction l as [|k l IH]; [reflexivity|]. cbn [flat_map]. rewrite xorl_app by (rewrite !map_length; reflexivity). f_equal; [|exact IH].
  unfold xorl at 2. clear IH. induction polys as [|p ps IH]; [reflexivity|]. cbn [map combine fst snd]. rewrite conv_bit_lin by assumption. f_equal. exact IH.
Qed.
Lemma conv_code_length polys m : length (conv_code polys m) = (length m * length polys)%nat.
Proof. rewrite conv_tcode. apply tcode_length. Qed.
Lemma terminated_xorl m m' : length m = length m' -> terminated m -> terminated m' -> terminated (xorl m m').
Proof. intros L T T' i Hi. rewrite xorl_length in Hi by assumption. rewrite nth_xorl by assumption. rewrite T, T' by lia. reflexivity. Qed.

Fixpoint all_lists (k : nat) : list (list bool) := match k with O => [[]] | S k => map (cons false) (all_lists k) ++ map (cons true) (all_lists k) end.
Lemma all_lists_in k : forall l, length l = k -> In l (all_lists k).
Proof.
  induction k as [|k IH]; intros [|b l] L; try discriminate; [now left|]. cbn [all_lists]. apply in_or_app. destruct b; [right|left]; apply in_map; apply IH; now injection L.
Qed.

(** ** Puncturing *)
Section Punct.
  Variables (polys : list (list bool)) (pu : punct_mode) (t per spb : nat) (ps : list nat).
  Fixpoint psel {A} (d : A) (q : nat) (c : list A) : list A := match q with O => [] | S q => map (fun x => nth x c d) ps ++ psel d q (skipn per c) end.
  Fixpoint pos (l : list nat) (i : nat) : option nat := match l with [] => None | p :: l => if (p =? i)%nat then Some 0%nat else option_map S (pos l i) end.
  Definition dblock {A} (e : A) (ys : list A) : list A := map (fun i => match pos ps i with Some x => nth x ys e | None => e end) (seq 0 per).
  Fixpoint dep {A} (e : A) (q : nat) (y : list A) : list A := match q with O => [] | S q => dblock e (firstn t y) ++ dep e q (skipn t y) end.

  Lemma pos_none l i : pos l i = None -> ~ In i l.
  Proof. induction l as [|p l IH]; intros H; [easy|]. cbn [pos] in H. destruct (Nat.eqb_spec p i) as [->|NE]; [discriminate|]. intros [->|Q]; [congruence|]. destruct (pos l i); [discriminate|]. now apply IH. Qed.
  Lemma pos_some l i x : pos l i = Some x -> (x < length l)%nat /\ nth x l 0%nat = i.
  Proof.
    revert x. induction l as [|p l IH]; intros x H; [discriminate|]. cbn [pos] in H. destruct (Nat.eqb_spec p i) as [->|NE]; [injection H as <-; cbn; split; [lia|reflexivity]|]. destruct (pos l i) as [y|]; [|discriminate]. cbn [option_map] in H. injection H as <-.
    destruct (IH y eq_refl) as [A B]. split; [cbn; lia|exact B].
  Qed.
  Lemma pos_nth l x : NoDup l -> (x < length l)%nat -> pos l (nth x l 0%nat) = Some x.
  Proof.
    revert x. induction l as [|p l IH]; intros x ND L; [cbn in L; lia|]. apply NoDup_cons_iff in ND. destruct ND as [NI ND]. destruct x as [|x]; cbn [nth pos]; [now rewrite Nat.eqb_refl|].
    cbn [length] in L. destruct (Nat.eqb_spec p (nth x l 0%nat)) as [E|NE]; [exfalso; apply NI; rewrite E; apply nth_In; lia|]. rewrite IH by (assumption || lia). reflexivity.
  Qed.
  Lemma psel_length {A} (d : A) q c : length (psel d q c) = (length ps * q)%nat.
  Proof. revert c. induction q as [|q IH]; intros c; cbn [psel]; [cbn; lia|]. rewrite app_length, map_length, IH. lia. Qed.
  Lemma dep_length {A} (e : A) q y : length (dep e q y) = (per * q)%nat.
  Proof. revert y. induction q as [|q IH]; intros y; cbn [dep]; [cbn; lia|]. unfold dblock. rewrite app_length, map_length, seq_length, IH. lia. Qed.
  Lemma psel_map {A B} (f : A -> B) d q c : psel (f d) q (map f c) = map f (psel d q c).
  Proof. revert c. induction q as [|q IH]; intros c; cbn [psel]; [reflexivity|]. rewrite map_app, map_map, <- IH, skipn_map. f_equal. apply map_ext. intros x. apply map_nth. Qed.
  Lemma dep_map {A B} (f : A -> B) e q y : dep (f e) q (map f y) = map f (dep e q y).
  Proof. revert y. induction q as [|q IH]; intros y; cbn [dep]; [reflexivity|]. rewrite map_app, <- IH, skipn_map, firstn_map. f_equal. unfold dblock. rewrite map_map. apply map_ext. intros i. destruct (pos ps i); [apply map_nth|reflexivity]. Qed.
  Lemma psel_lin q : forall c c', length c = length c' -> psel false q (xorl c c') = xorl (psel false q c) (psel false q c').
  Proof.
    induction q as [|q IH]; intros c c' L; [reflexivity|]. cbn [psel]. rewrite xorl_app by (rewrite !map_length; reflexivity). f_equal.
    - clear IH. induction ps as [|x l IH]; [reflexivity|]. unfold xorl in *. cbn [map combine fst snd]. f_equal; [exact (nth_xorl c c' x L)|exact IH].
    - rewrite <- IH by (rewrite !skipn_length; lia). f_equal. unfold xorl. rewrite skipn_map. f_equal. clear. revert c c'. induction per as [|k IH]; intros c c'; [reflexivity|]. destruct c, c'; cbn [combine skipn]; try reflexivity; [|apply IH]. destruct (skipn k c); reflexivity.
  Qed.

  Hypothesis Hper : per = (spb * length polys)%nat.
  Hypothesis Hlen : length ps = t.
  Hypothesis Hlt : forall x, In x ps -> (x < per)%nat.
  Hypothesis Hnd : NoDup ps.
  Hypothesis Hidx : forall q x, (x < t)%nat -> punct_index pu (t * q + x + 1) = (per * q + nth x ps 0)%nat.
  Hypothesis Ht : (0 < t)%nat.

  Lemma nth_psel {A} (d : A) : forall b q x c, (b < q)%nat -> (x < t)%nat -> nth (t * b + x) (psel d q c) d = nth (per * b + nth x ps 0) c d.
  Proof.
    induction b as [|b IH]; intros q x c B X; (destruct q as [|q]; [lia|]); cbn [psel].
    - rewrite !Nat.mul_0_r, !Nat.add_0_l. rewrite app_nth1 by (rewrite map_length, Hlen; assumption). rewrite (nth_indep _ d (nth 0 c d)) by (rewrite map_length, Hlen; assumption). rewrite (map_nth (fun x => nth x c d)). reflexivity.
    - rewrite app_nth2 by (rewrite map_length, Hlen; lia). rewrite map_length, Hlen. replace (t * S b + x - t)%nat with (t * b + x)%nat by lia. rewrite IH by lia. rewrite nth_skipn'. f_equal. lia.
  Qed.
  Lemma nth_dep {A} (e : A) : forall b q i y, (b < q)%nat -> (i < per)%nat -> nth (per * b + i) (dep e q y) e = match pos ps i with Some x => nth (t * b + x) y e | None => e end.
  Proof.
    induction b as [|b IH]; intros q i y B I; (destruct q as [|q]; [lia|]); cbn [dep].
    - rewrite Nat.mul_0_r, Nat.add_0_l. rewrite app_nth1 by (unfold dblock; rewrite map_length, seq_length; assumption). unfold dblock. rewrite nth_map_seq by assumption. destruct (pos ps i) as [x|] eqn:P; [|reflexivity]. apply pos_some in P. destruct P as [P _]. rewrite nth_firstn' by lia. f_equal. lia.
    - rewrite app_nth2 by (unfold dblock; rewrite map_length, seq_length; lia). unfold dblock at 1. rewrite map_length, seq_length. replace (per * S b + i - per)%nat with (per * b + i)%nat by lia. rewrite IH by lia. destruct (pos ps i); [|reflexivity]. rewrite nth_skipn'. f_equal. lia.
  Qed.
  Lemma punct_idx_lt q j : (1 <= j <= t * q)%nat -> (punct_index pu j < per * q)%nat.
  Proof.
    intros J. set (b := ((j - 1) / t)%nat). set (x := ((j - 1) mod t)%nat). assert (E : (j - 1 = t * b + x)%nat) by (apply Nat.div_mod; lia). assert (X : (x < t)%nat) by (apply Nat.mod_upper_bound; lia).
    replace j with (t * b + x + 1)%nat by lia. rewrite Hidx by assumption. assert (B : (b < q)%nat) by (apply Nat.div_lt_upper_bound; lia). assert (nth x ps 0 < per)%nat by (apply Hlt, nth_In; lia).
    assert (per * b + per <= per * q)%nat by (replace (per * b + per)%nat with (per * (b + 1))%nat by lia; apply Nat.mul_le_mono_l; lia). lia.
  Qed.
  Lemma punct_spec {A} (d z : A) q c : (per * q <= length c)%nat -> get_punctured_rate pu c (repeat z (t * q)) = Ok (psel d q c).
  Proof.
    intros L. unfold get_punctured_rate. rewrite repeat_length. destruct (copy_idx_spec (map (fun j => ((j - 1)%nat, punct_index pu j)) (seq 1 (t * q))) c (repeat z (t * q))) as (out & E & LO & H & _).
    - intros i j Hij. apply in_map_iff in Hij. destruct Hij as (k & Ek & Hk). injection Ek as <- <-. apply in_seq in Hk. rewrite repeat_length. pose proof (punct_idx_lt q k). lia.
    - rewrite map_map. cbn [fst]. rewrite <- seq_shift, map_map. rewrite (map_ext (fun x => (S x - 1)%nat) (fun x => x)) by (intros; lia). rewrite map_id. apply seq_NoDup.
    - rewrite E. f_equal. rewrite repeat_length in LO. apply (list_ext _ _ d); [rewrite LO, psel_length, Hlen; reflexivity|]. intros i Hi. rewrite LO in Hi.
      set (b := (i / t)%nat). set (x := (i mod t)%nat). assert (EI : (i = t * b + x)%nat) by (apply Nat.div_mod; lia). assert (X : (x < t)%nat) by (apply Nat.mod_upper_bound; lia). assert (B : (b < q)%nat) by (apply Nat.div_lt_upper_bound; lia).
      rewrite (H i (punct_index pu (i + 1)) d) by (apply in_map_iff; exists (i + 1)%nat; split; [f_equal; lia|apply in_seq; lia]). rewrite EI at 1. rewrite Hidx by assumption. rewrite EI. rewrite nth_psel by assumption. reflexivity.
  Qed.
  Lemma depunct_spec {A} (e : A) q y rest : (t * q <= length y)%nat -> rcpc_depunct pu y (t * q) (repeat e (per * q + rest)) = Ok (dep e q y ++ repeat e rest).
  Proof.
    intros L. unfold rcpc_depunct. destruct (copy_idx_spec (map (fun j => (punct_index pu j, (j - 1)%nat)) (seq 1 (t * q))) y (repeat e (per * q + rest))) as (out & E & LO & H & H').
    - intros i j Hij. apply in_map_iff in Hij. destruct Hij as (k & Ek & Hk). injection Ek as <- <-. apply in_seq in Hk. rewrite repeat_length. pose proof (punct_idx_lt q k). lia.
    - rewrite map_map. cbn [fst]. rewrite (map_ext (fun x => punct_index pu x) (punct_index pu)) by reflexivity. apply NoDup_nth with (d := 0%nat). rewrite map_length, seq_length. intros i j Hi Hj Q.
      assert (G : forall i, (i < t * q)%nat -> nth i (map (punct_index pu) (seq 1 (t * q))) 0%nat = punct_index pu (i + 1)).
      { intros k Hk. rewrite (nth_indep _ 0%nat (punct_index pu 0)) by (rewrite map_length, seq_length; assumption). rewrite map_nth, seq_nth by assumption. f_equal. lia. }
      rewrite !G in Q by assumption. clear G.
      set (b := (i / t)%nat) in *. set (x := (i mod t)%nat) in *. assert (EI : (i = t * b + x)%nat) by (apply Nat.div_mod; lia). assert (X : (x < t)%nat) by (apply Nat.mod_upper_bound; lia).
      set (b' := (j / t)%nat) in *. set (x' := (j mod t)%nat) in *. assert (EJ : (j = t * b' + x')%nat) by (apply Nat.div_mod; lia). assert (X' : (x' < t)%nat) by (apply Nat.mod_upper_bound; lia).
      clearbody b x b' x'. subst i j. rewrite !Hidx in Q by assumption. assert (P1 : (nth x ps 0 < per)%nat) by (apply Hlt, nth_In; lia). assert (P2 : (nth x' ps 0 < per)%nat) by (apply Hlt, nth_In; lia).
      assert (EB : b = b' /\ nth x ps 0%nat = nth x' ps 0%nat).
      { assert (b = b'); [|subst; split; [reflexivity|lia]]. destruct (Nat.lt_trichotomy b b') as [C|[C|C]]; [|assumption|].
        - assert (per * b + per <= per * b')%nat by (replace (per * b + per)%nat with (per * (b + 1))%nat by lia; apply Nat.mul_le_mono_l; lia). lia.
        - assert (per * b' + per <= per * b)%nat by (replace (per * b' + per)%nat with (per * (b' + 1))%nat by lia; apply Nat.mul_le_mono_l; lia). lia. }
      destruct EB as [-> EB]. assert (x = x'); [|lia]. apply (proj1 (NoDup_nth ps 0%nat) Hnd); lia.
    - rewrite E. f_equal. rewrite repeat_length in LO. assert (TL : length (dep e q y ++ repeat e rest) = (per * q + rest)%nat) by (rewrite app_length, dep_length, repeat_length; reflexivity).
      apply (list_ext _ _ e); [congruence|]. intros i Hi. rewrite LO in Hi. destruct (Nat.lt_ge_cases i (per * q)) as [C|C].
      + rewrite app_nth1 by (rewrite dep_length; assumption). assert (PP : (0 < per)%nat) by lia. set (b := (i / per)%nat). set (x := (i mod per)%nat). assert (EI : (i = per * b + x)%nat) by (apply Nat.div_mod; lia). assert (X : (x < per)%nat) by (apply Nat.mod_upper_bound; lia). assert (B : (b < q)%nat) by (apply Nat.div_lt_upper_bound; lia).
        rewrite EI at 2. rewrite nth_dep by assumption. destruct (pos ps x) as [k|] eqn:P.
        * apply pos_some in P. destruct P as [P1 P2]. apply H. apply in_map_iff. exists (t * b + k + 1)%nat. split; [rewrite Hidx by lia; rewrite P2, EI; f_equal; lia|]. apply in_seq. assert (t * b + t <= t * q)%nat by (replace (t * b + t)%nat with (t * (b + 1))%nat by lia; apply Nat.mul_le_mono_l; lia). lia.
        * apply pos_none in P. rewrite H'; [apply nth_repeat|]. intros Q. apply P. rewrite map_map in Q. apply in_map_iff in Q. cbn [fst] in Q. destruct Q as (j & EQ & Hj). apply in_seq in Hj.
          set (b' := ((j - 1) / t)%nat). set (x' := ((j - 1) mod t)%nat). assert (EJ : (j - 1 = t * b' + x')%nat) by (apply Nat.div_mod; lia). assert (X' : (x' < t)%nat) by (apply Nat.mod_upper_bound; lia).
          replace j with (t * b' + x' + 1)%nat in EQ by lia. rewrite Hidx in EQ by assumption. assert (IN : In (nth x' ps 0%nat) ps) by (apply nth_In; lia). assert (P2 : (nth x' ps 0 < per)%nat) by (apply Hlt; assumption).
          clearbody b x b' x'. assert (EB : b = b').
          { destruct (Nat.lt_trichotomy b b') as [D|[D|D]]; [|assumption|].
            - assert (per * b + per <= per * b')%nat by (replace (per * b + per)%nat with (per * (b + 1))%nat by lia; apply Nat.mul_le_mono_l; lia). lia.
            - assert (per * b' + per <= per * b)%nat by (replace (per * b' + per)%nat with (per * (b' + 1))%nat by lia; apply Nat.mul_le_mono_l; lia). lia. }
          subst b'. replace x with (nth x' ps 0%nat) by lia. assumption.
      + rewrite app_nth2 by (rewrite dep_length; assumption). rewrite nth_repeat. rewrite H'; [apply nth_repeat|]. intros Q. rewrite map_map in Q. apply in_map_iff in Q. cbn [fst] in Q. destruct Q as (j & EQ & Hj). apply in_seq in Hj. pose proof (punct_idx_lt q j). lia.
  Qed.

  (** mismatches of a depunctured word = Hamming distance of the punctured ones *)
  Hypothesis Hmm : forall cb ys, length cb = per -> length ys = t -> mismatches cb (dblock None (map Some ys)) = hamming (map (fun x => nth x cb false) ps) ys.
  Lemma mism_dep q : forall c y, length c = (per * q)%nat -> length y = (t * q)%nat -> mismatches c (dep None q (map Some y)) = hamming (psel false q c) y.
  Proof.
    induction q as [|q IH]; intros c y LC LY; cbn [dep psel].
    - destruct c; [reflexivity|cbn in LC; lia].
    - rewrite <- (firstn_skipn per c) at 1. rewrite mismatches_app by (unfold dblock; rewrite map_length, seq_length, firstn_length; lia). rewrite <- (firstn_skipn t y) at 3. rewrite hamming_app by (rewrite map_length, firstn_length; lia).
      rewrite firstn_map, skipn_map. rewrite IH by (rewrite skipn_length; lia). f_equal. rewrite Hmm by (rewrite firstn_length; lia). f_equal. apply map_ext_in. intros x Hx. apply nth_firstn'. now apply Hlt.
  Qed.

  (** *** distance *)
  Variables (W : list nat) (d : nat).
  Definition blkw (s : nat) (blk : list bool) : nat := weight (map (fun x => nth x (tcode polys s blk) false) ps).
  Definition pot_check : bool :=
    forallb (fun s => forallb (fun blk => (nth s W 0 <=? blkw s blk + nth (fin s blk) W 0)%nat && (negb (s =? 0)%nat || negb (existsb (fun b => b) blk) || (d <=? blkw 0 blk + nth (fin 0 blk) W 0)%nat)) (all_lists spb)) (seq 0 16).
  Hypothesis Hpot : pot_check = true.
  Lemma pot_facts s blk : (s < 16)%nat -> length blk = spb -> (nth s W 0 <= blkw s blk + nth (fin s blk) W 0)%nat /\ (s = 0%nat -> In true blk -> (d <= blkw 0 blk + nth (fin 0 blk) W 0)%nat).
  Proof.
    intros S L. unfold pot_check in Hpot. rewrite forallb_forall in Hpot. assert (I : In s (seq 0 16)) by (apply in_seq; lia). specialize (Hpot s I). rewrite forallb_forall in Hpot. specialize (Hpot blk (all_lists_in spb blk L)). apply andb_prop in Hpot. destruct Hpot as [A B].
    split; [now apply Nat.leb_le|]. intros -> T. apply orb_prop in B. destruct B as [B|B]; [|now apply Nat.leb_le]. apply orb_prop in B. destruct B as [B|B]; [discriminate|]. exfalso. assert (E : existsb (fun b => b) blk = true) by (apply existsb_exists; exists true; auto). rewrite E in B. discriminate.
  Qed.
  Lemma weight_app a b : weight (a ++ b) = (weight a + weight b)%nat.
  Proof. induction a as [|x a IH]; [reflexivity|]. cbn [app weight]. rewrite IH. lia. Qed.
  Lemma psel_block q s m : length m = (spb * S q)%nat -> psel false (S q) (tcode polys s m) =
    map (fun x => nth x (tcode polys s (firstn spb m)) false) ps ++ psel false q (tcode polys (fin s (firstn spb m)) (skipn spb m)).
  Proof.
    intros L. cbn [psel]. assert (E : tcode polys s m = tcode polys s (firstn spb m) ++ tcode polys (fin s (firstn spb m)) (skipn spb m)) by (rewrite <- tcode_app, firstn_skipn; reflexivity).
    assert (LB : length (tcode polys s (firstn spb m)) = per) by (rewrite tcode_length, firstn_length, Hper; f_equal; lia). rewrite E. f_equal.
    - apply map_ext_in. intros x Hx. rewrite app_nth1; [reflexivity|]. rewrite LB. now apply Hlt.
    - f_equal. rewrite skipn_app, LB, Nat.sub_diag, <- LB, skipn_all. reflexivity.
  Qed.
  Lemma fin_b m : forall s, (s < 16)%nat -> (fin s m < 16)%nat.
  Proof. induction m as [|b m IH]; intros s H; [assumption|]. cbn [fin]. apply IH. unfold step. assert (s / 2 < 8)%nat by (apply Nat.div_lt_upper_bound; lia). destruct b; lia. Qed.
  Lemma pot_weight q : forall s m, (s < 16)%nat -> length m = (spb * q)%nat -> (nth s W 0 <= weight (psel false q (tcode polys s m)) + nth (fin s m) W 0)%nat.
  Proof.
    induction q as [|q IH]; intros s m S L.
    - destruct m; [cbn [psel weight fin]; lia|cbn in L; lia].
    - rewrite psel_block by assumption. rewrite weight_app. assert (LB : length (firstn spb m) = spb) by (rewrite firstn_length; lia). destruct (pot_facts s (firstn spb m) S LB) as [A _]. unfold blkw in A.
      assert (F : (fin s (firstn spb m) < 16)%nat) by (now apply fin_b). specialize (IH (fin s (firstn spb m)) (skipn spb m) F). rewrite skipn_length in IH. specialize (IH ltac:(lia)). rewrite <- fin_app, firstn_skipn in IH. lia.
  Qed.
  Lemma fin_zero m : ~ In true m -> fin 0 m = 0%nat.
  Proof. induction m as [|[] m IH]; intros H; [reflexivity|exfalso; apply H; now left|]. cbn [fin]. change (step false 0) with 0%nat. apply IH. intros Q. apply H. now right. Qed.
  Lemma pot_dist q : forall m, length m = (spb * q)%nat -> In true m -> (d <= weight (psel false q (tcode polys 0 m)) + nth (fin 0 m) W 0)%nat.
  Proof.
    induction q as [|q IH]; intros m L T.
    - destruct m; [contradiction|cbn in L; lia].
    - rewrite psel_block by assumption. rewrite weight_app. assert (LB : length (firstn spb m) = spb) by (rewrite firstn_length; lia). destruct (in_dec Bool.bool_dec true (firstn spb m)) as [I|I].
      + destruct (pot_facts 0 (firstn spb m) ltac:(lia) LB) as [_ A]. specialize (A eq_refl I). unfold blkw in A. assert (F : (fin 0 (firstn spb m) < 16)%nat) by (apply fin_b; lia).
        pose proof (pot_weight q (fin 0 (firstn spb m)) (skipn spb m) F) as G. rewrite skipn_length in G. specialize (G ltac:(lia)). rewrite <- fin_app, firstn_skipn in G. lia.
      + assert (T' : In true (skipn spb m)) by (rewrite <- (firstn_skipn spb m) in T; apply in_app_or in T; destruct T; [contradiction|assumption]).
        pose proof (fin_zero _ I) as Z. rewrite Z. specialize (IH (skipn spb m)). rewrite skipn_length in IH. specialize (IH ltac:(lia) T'). assert (E : fin 0 m = fin 0 (skipn spb m)) by (rewrite <- (firstn_skipn spb m) at 1; rewrite fin_app, Z; reflexivity). rewrite E. lia.
  Qed.
  Hypothesis W0 : nth 0 W 0%nat = 0%nat.
  Lemma near_unique q m1 m2 y : length m1 = (spb * q)%nat -> length m2 = (spb * q)%nat -> terminated m1 -> terminated m2 -> length y = (t * q)%nat ->
    (hamming (psel false q (conv_code polys m1)) y + hamming (psel false q (conv_code polys m2)) y < d)%nat -> m1 = m2.
  Proof.
    intros L1 L2 T1 T2 LY H. assert (L : length m1 = length m2) by congruence. apply xorl_zero; [assumption|]. intros I.
    assert (LX : length (xorl m1 m2) = (spb * q)%nat) by (rewrite xorl_length by assumption; assumption). pose proof (pot_dist q (xorl m1 m2) LX I) as P.
    rewrite (proj2 (fin_terminated _) (terminated_xorl m1 m2 L T1 T2)), W0 in P. rewrite <- conv_tcode, conv_code_lin, psel_lin in P by (rewrite ?conv_code_length; congruence).
    rewrite <- hamming_xorl in P by (rewrite !psel_length; reflexivity). pose proof (hamming_triangle (psel false q (conv_code polys m1)) (psel false q (conv_code polys m2)) y) as G.
    rewrite !psel_length, Hlen in G. specialize (G eq_refl (eq_sym LY)). lia.
  Qed.
End Punct.
