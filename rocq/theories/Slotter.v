(** Model of crates/tetra-entities/src/phy/components/slotter.rs, burst_consts.rs, train_consts.rs and
    of the parts of phy_bs.rs that build a downlink burst and cut up a received one.  A bit array is
    a list of u8 values.  Not modelled: the radio device, the file input and output modes, the
    modulator and demodulator. *)
From Coq Require Import ZArith.
From Verif Require Import Base BitBuffer TdmaTime.
Open Scope N_scope.

(** slotter.rs:8-27 *)
Definition seq_n : list N := [1;1;0;1;0;0;0;0;1;1;1;0;1;0;0;1;1;1;0;1;0;0].
Definition seq_p : list N := [0;1;1;1;1;0;1;0;0;1;0;0;0;0;1;1;0;1;1;1;1;0].
Definition seq_q : list N := [1;0;1;1;0;1;1;1;0;0;0;0;0;1;1;0;1;0;1;1;0;1].
Definition seq_y : list N := [1;1;0;0;0;0;0;1;1;0;0;1;1;1;0;0;1;1;1;0;1;0;0;1;1;1;0;0;0;0;0;1;1;0;0;1;1;1].
Definition seq_f : list N := repeat 1 8 ++ repeat 0 64 ++ repeat 1 8.

(** tetra-core TrainingSequence, BurstType, PhyBlockType, PhyBlockNum *)
Inductive train_seq := TrainNotFound | TrainNormal1 | TrainNormal2 | TrainNormal3 | TrainExtended | TrainSync.
Inductive burst_type := BurstCUB | BurstNUB | BurstNDB | BurstSDB.
Inductive phy_blk := PbSSN1 | PbNUB.
Inductive blk_num := BkBoth | Bk1 | Bk2.

(** slotter.rs:31-56 *)
Inductive phase_adj := PaHA | PaHB | PaHC | PaHD.
Definition phase_adj_span (p : phase_adj) : nat * nat :=
  match p with PaHA => (8, 122) | PaHB => (123, 249) | PaHC => (8, 108) | PaHD => (109, 249) end%nat.
(** slotter.rs:58-67; [%] truncates towards zero *)
Definition calc_phase_adj (phase : Z) : Z :=
  let a := (- Z.rem phase 8)%Z in
  if (3 <? a)%Z then (a - 8)%Z else if (a <? -3)%Z then (a + 8)%Z else a.
(** slotter.rs:70-83 *)
Definition BITS2PHASE : list Z := [1; -1; 3; -3]%Z.
Definition PHASE2BITS : list (Z * list N) := [(-3, [1; 1]%N); (0, [0; 0]%N); (-1, [0; 1]%N); (0, [0; 0]%N); (1, [0; 0]%N); (3, [1; 0]%N)]%Z.
(** slotter.rs:88-97; indexing out of range panics *)
Fixpoint sum_up_phase (bits : list N) (idx n_symbols : nat) (sum : Z) : res Z :=
  match n_symbols with
  | O => Ok sum
  | S n =>
      b0 <- unwrap (nth_error bits idx) ;;
      b1 <- unwrap (nth_error bits (idx + 1)) ;;
      ph <- unwrap (nth_error BITS2PHASE (N.to_nat (N.lor b0 (N.land (N.shiftl b1 1) 255)))) ;;
      sum_up_phase bits (idx + 2) n (sum + ph)%Z
  end.
(** slotter.rs:103-112 *)
Definition compute_phase_adj_bits (window : list N) (pan : phase_adj) : res (list N) :=
  let '(n1, n2) := phase_adj_span pan in
  sum <- sum_up_phase window ((n1 - 1) * 2) (n2 - n1 + 1) 0 ;;
  let adj := calc_phase_adj sum in
  e <- unwrap (find (fun e => (fst e =? adj)%Z) PHASE2BITS) ;;
  Ok (snd e).
(** [dst[a..b].copy_from_slice(src)] *)
Definition put (a b : nat) (src dst : list N) : res (list N) :=
  assert ((a <=? b) && (b <=? length dst) && (length src =? b - a))%nat%bool ;;;
  Ok (firstn a dst ++ src ++ skipn b dst).
(** slotter.rs:118-144 *)
Definition build_sdb (blk1 bbk blk2 : list N) : res (list N) :=
  t <- put 0 12 (skipn 10 seq_q) (repeat 0 510) ;;
  t <- put 14 94 seq_f t ;;
  t <- put 94 214 blk1 t ;;
  t <- put 214 252 seq_y t ;;
  t <- put 252 282 bbk t ;;
  t <- put 282 498 blk2 t ;;
  t <- put 500 510 (firstn 10 seq_q) t ;;
  fc1 <- compute_phase_adj_bits t PaHC ;;
  fc2 <- compute_phase_adj_bits t PaHD ;;
  t <- put 12 14 fc1 t ;;
  put 498 500 fc2 t.
(** slotter.rs:151-194 *)
Definition build_ndb (ts : train_seq) (blk1 bbk blk2 : list N) : res (list N) :=
  t <- put 0 12 (skipn 10 seq_q) (repeat 0 510) ;;
  t <- put 14 230 blk1 t ;;
  t <- put 230 244 (firstn 14 bbk) t ;;
  t <- match ts with TrainNormal1 => put 244 266 seq_n t | TrainNormal2 => put 244 266 seq_p t | _ => Panic end ;;
  t <- put 266 282 (skipn 14 bbk) t ;;
  t <- put 282 498 blk2 t ;;
  t <- put 500 510 (firstn 10 seq_q) t ;;
  fc1 <- compute_phase_adj_bits t PaHA ;;
  fc2 <- compute_phase_adj_bits t PaHB ;;
  t <- put 12 14 fc1 t ;;
  put 498 500 fc2 t.

(** phy_bs.rs:173-225 [rx_tpsap_prim]: the burst made of a [TpUnitdataReq]; no input file *)
Record tp_req := mk_tpreq { tp_burst : burst_type; tp_train : train_seq; tp_bbk : option bitbuf; tp_blk1 : option bitbuf; tp_blk2 : option bitbuf }.
Definition phy_build (q : tp_req) : res (list N) :=
  b <- unwrap (tp_bbk q) ;;
  '(bbk, _) <- to_bitarr 30 b ;;
  match tp_burst q with
  | BurstSDB =>
      assert (match tp_train q with TrainSync => true | _ => false end) ;;;
      b1 <- unwrap (tp_blk1 q) ;;
      b2 <- unwrap (tp_blk2 q) ;;
      '(blk1, _) <- to_bitarr 120 b1 ;;
      '(blk2, _) <- to_bitarr 216 b2 ;;
      build_sdb blk1 bbk blk2
  | BurstNDB =>
      match tp_train q with
      | TrainNormal1 =>
          assert (match tp_blk2 q with None => true | Some _ => false end) ;;;
          b1 <- unwrap (tp_blk1 q) ;;
          '(blk1, b1) <- to_bitarr 216 b1 ;;
          '(blk2, _) <- to_bitarr 216 b1 ;;
          build_ndb TrainNormal1 blk1 bbk blk2
      | TrainNormal2 =>
          b1 <- unwrap (tp_blk1 q) ;;
          b2 <- unwrap (tp_blk2 q) ;;
          '(blk1, _) <- to_bitarr 216 b1 ;;
          '(blk2, _) <- to_bitarr 216 b2 ;;
          build_ndb TrainNormal2 blk1 bbk blk2
      | _ => Panic
      end
  | _ => Panic
  end.

(** burst_consts.rs:4-22, in bits *)
Definition SB_BLK1_OFFSET : nat := ((6 + 1 + 40) * 2)%nat.
Definition SB_BBK_OFFSET : nat := ((6 + 1 + 40 + 60 + 19) * 2)%nat.
Definition SB_BLK2_OFFSET : nat := ((6 + 1 + 40 + 60 + 19 + 15) * 2)%nat.
Definition NDB_BLK1_OFFSET : nat := ((5 + 1 + 1) * 2)%nat.
Definition NDB_BBK1_OFFSET : nat := ((5 + 1 + 1 + 108) * 2)%nat.
Definition NDB_BBK2_OFFSET : nat := ((5 + 1 + 1 + 108 + 7 + 11) * 2)%nat.
Definition NDB_BLK2_OFFSET : nat := ((5 + 1 + 1 + 108 + 7 + 11 + 8) * 2)%nat.
(** burst_consts.rs:24-42 *)
Definition NUB_BITS : nat := (4 + 216 + 22 + 216 + 4)%nat.
Definition CUB_BITS : nat := (4 + 84 + 30 + 84 + 4)%nat.
(** phy_bs.rs:77-101 [TpUnitdataInd] with its time *)
Record tp_ind := mk_tpind { tp_i_train : train_seq; tp_i_burst : burst_type; tp_i_type : phy_blk; tp_i_num : blk_num; tp_i_block : bitbuf; tp_i_time : tdma_time }.
Definition slice (l : list N) (a n : nat) : list N := firstn n (skipn a l).
(** phy_bs.rs:104-164 [split_rxslot_and_send_to_lmac] *)
Definition phy_split (ts : train_seq) (bits : list N) (dltime : tdma_time) : res (list tp_ind) :=
  let t := add_timeslots dltime (-2) in
  match ts with
  | TrainNormal1 =>
      assert (length bits =? NUB_BITS)%nat ;;;
      b <- copy_bits_from_bitarr (slice bits 4 216) (bb_new 432) ;;
      b <- copy_bits_from_bitarr (slice bits 242 216) b ;;
      b <- seek 0 b ;;
      Ok [mk_tpind ts BurstNUB PbNUB BkBoth b t]
  | TrainNormal2 =>
      assert (length bits =? NUB_BITS)%nat ;;;
      b1 <- bb_from_bitarr (slice bits 4 216) ;;
      b2 <- bb_from_bitarr (slice bits 242 216) ;;
      Ok [mk_tpind ts BurstNUB PbNUB Bk1 b1 t; mk_tpind ts BurstNUB PbNUB Bk2 b2 t]
  | TrainExtended =>
      assert (length bits =? CUB_BITS)%nat ;;;
      b <- copy_bits_from_bitarr (slice bits 4 84) (bb_new 168) ;;
      b <- copy_bits_from_bitarr (slice bits 118 84) b ;;
      b <- seek 0 b ;;
      Ok [mk_tpind ts BurstCUB PbSSN1 Bk1 b t]
  | _ => Panic
  end.
(** phy_bs.rs:251-291: full slot, then each half slot, that carries a training sequence *)
Definition phy_rx (dltime : tdma_time) (parts : list (train_seq * list N)) : res (list tp_ind) :=
  fold_left (fun acc p => a <- acc ;; match fst p with TrainNotFound => Ok a | ts => l <- phy_split ts (snd p) dltime ;; Ok (a ++ l) end) parts (Ok []).
