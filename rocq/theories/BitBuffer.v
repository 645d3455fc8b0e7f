(** Model of crates/tetra-core/src/bitbuffer.rs : [BitBuffer].
    Byte-level, following the code's head / full-byte / tail paths.
    Simplifications: [usize] positions are [nat] (no overflow at 2^64 bits);
    strings of '0'/'1' are lists of booleans; the debug dump functions
    (dump_bin, dump_hex, raw_dump_bin: lines 554-618) are not modelled. *)
From Verif Require Import Base.
Open Scope N_scope.

(** bitbuffer.rs:10-16 [struct BitBuffer]; a byte is an [N] below 256. *)
Record bitbuf : Type := mkbb {
  bytes : list N;
  bstart : nat;
  bpos : nat;
  bend : nat;
  autoexp : bool
}.

Definition set_bytes (b : bitbuf) (l : list N) := mkbb l (bstart b) (bpos b) (bend b) (autoexp b).
Definition set_pos (b : bitbuf) (p : nat) := mkbb (bytes b) (bstart b) p (bend b) (autoexp b).
Definition set_start (b : bitbuf) (p : nat) := mkbb (bytes b) p (bpos b) (bend b) (autoexp b).
Definition set_end (b : bitbuf) (p : nat) := mkbb (bytes b) (bstart b) (bpos b) p (autoexp b).

(** capacity in bits: [self.buffer.len() * 8] *)
Definition cap (b : bitbuf) : nat := (length (bytes b) * 8)%nat.

(** [self.buffer[i]]: index out of bounds panics. *)
Definition byte_at (l : list N) (i : nat) : res N :=
  match nth_error l i with Some x => Ok x | None => Panic end.
(** [self.buffer[i] = x]: index out of bounds panics. *)
Definition byte_set (l : list N) (i : nat) (x : N) : res (list N) :=
  if (i <? length l)%nat then Ok (upd l i x) else Panic.

(** u64 / u8 arithmetic used by the code. *)
Definition u64mask : N := 2^64 - 1.
Definition shl64 (x : N) (k : nat) : N := N.land (N.shiftl x (N.of_nat k)) u64mask.
Definition shr (x : N) (k : nat) : N := N.shiftr x (N.of_nat k).
Definition to_u8 (x : N) : N := N.land x 255.
Definition shl8 (x : N) (k : nat) : N := to_u8 (N.shiftl x (N.of_nat k)).
Definition not8 (x : N) : N := N.lxor x 255.
Definition ones (k : nat) : N := N.shiftl 1 (N.of_nat k) - 1.

(** bitbuffer.rs:20-29 [new] *)
Definition bb_new (len_bits : nat) : bitbuf :=
  mkbb (repeat 0 ((len_bits + 7) / 8)%nat) 0 0 len_bits false.

(** bitbuffer.rs:33-42 [new_autoexpand] *)
Definition bb_new_autoexpand (initial_max_len_bits : nat) : bitbuf :=
  mkbb (repeat 0 ((initial_max_len_bits + 7) / 8)%nat) 0 0 0 true.

(** bitbuffer.rs:46-55 [from_vec] and 57-66 [from_bytes] (same value semantics) *)
Definition bb_from_vec (data : list N) : bitbuf :=
  mkbb data 0 0 (length data * 8) false.

(** bitbuffer.rs:625-663 [read_bits_at_unchecked]: full-byte loop (lines 645-650);
    [k] is the number of iterations [bits_remaining / 8]. *)
Fixpoint rd_full (l : list N) (k : nat) (bit_pos : nat) (result : N) : res N :=
  match k with
  | O => Ok result
  | S k' =>
      byte <- byte_at l (bit_pos / 8) ;;
      rd_full l k' (bit_pos + 8) (N.lor (shl64 result 8) byte)
  end.

(** bitbuffer.rs:653-660: tail loop over [i in 0..bits_remaining]; [n] bits are left to take. *)
Fixpoint rd_tail (byte : N) (bit_pos : nat) (i n : nat) (result : N) : N :=
  match n with
  | O => result
  | S n' =>
      let shift := (7 - (bit_pos mod 8 + i))%nat in
      let bit := N.land (shr byte shift) 1 in
      rd_tail byte bit_pos (S i) n' (N.lor (shl64 result 1) bit)
  end.

(** bitbuffer.rs:625-663 [read_bits_at_unchecked] *)
Definition read_bits_at_unchecked (l : list N) (bit_pos num_bits : nat) : res N :=
  let head := (bit_pos mod 8)%nat in
  '(result, bit_pos, bits_remaining) <-
    (if (negb (head =? 0) && (0 <? num_bits))%nat%bool then
       let take := Nat.min (8 - head) num_bits in
       byte <- byte_at l (bit_pos / 8) ;;
       let shift := (8 - head - take)%nat in
       let mask := to_u8 (ones take) in
       let bits := N.land (shr byte shift) mask in
       Ok (bits, bit_pos + take, num_bits - take)%nat
     else Ok (0, bit_pos, num_bits)) ;;
  let k := (bits_remaining / 8)%nat in
  result <- rd_full l k bit_pos result ;;
  let bit_pos := (bit_pos + 8 * k)%nat in
  let bits_remaining := (bits_remaining - 8 * k)%nat in
  if (0 <? bits_remaining)%nat then
    byte <- byte_at l (bit_pos / 8) ;;
    Ok (rd_tail byte bit_pos 0 bits_remaining result)
  else Ok result.

(** bitbuffer.rs:668-670 [read_bit_at_unchecked] *)
Definition read_bit_at_unchecked (l : list N) (bit_pos : nat) : res N :=
  byte <- byte_at l (bit_pos / 8) ;;
  Ok (N.land (shr byte (7 - bit_pos mod 8)) 1).

(** bitbuffer.rs:182-191 [peek_bits_startoffset]; the inner option is the returned [Option]. *)
Definition peek_bits_startoffset (b : bitbuf) (offset num_bits : nat) : res (option N) :=
  let abs_pos := (bstart b + offset)%nat in
  if ((64 <? num_bits) || (bend b <? bstart b + offset + num_bits))%nat%bool then Ok None
  else v <- read_bits_at_unchecked (bytes b) abs_pos num_bits ;; Ok (Some v).

(** [self.pos - self.start]: underflow panics (never reached: see wf). *)
Definition sub_checked (x y : nat) : res nat := if (y <=? x)%nat then Ok (x - y)%nat else Panic.

(** bitbuffer.rs:172-178 [peek_bits_posoffset] for a non-negative offset (the only
    use in the code).  Negative offsets (which overflow in the addition) are not modelled. *)
Definition peek_bits_posoffset (b : bitbuf) (offset num_bits : nat) : res (option N) :=
  p <- sub_checked (bpos b) (bstart b) ;;
  peek_bits_startoffset b (p + offset) num_bits.

(** bitbuffer.rs:165-168 [peek_bits] *)
Definition peek_bits (b : bitbuf) (num_bits : nat) : res (option N) :=
  peek_bits_posoffset b 0 num_bits.

(** bitbuffer.rs:193-197 [read_bits] (returned [None] is [Ok (None, b)]) *)
Definition read_bits_opt (b : bitbuf) (num_bits : nat) : res (option N * bitbuf) :=
  p <- sub_checked (bpos b) (bstart b) ;;
  ov <- peek_bits_startoffset b p num_bits ;;
  match ov with
  | None => Ok (None, b)
  | Some v => Ok (Some v, set_pos b (bpos b + num_bits))
  end.

(** bitbuffer.rs:200-203 [read_field] *)
Definition read_field (num_bits : nat) (b : bitbuf) : res (N * bitbuf) :=
  '(ov, b') <- read_bits_opt b num_bits ;;
  match ov with Some v => Ok (v, b') | None => Err EBufferEnded end.

(** bitbuffer.rs:205-209 [read_bit] *)
Definition read_bit_opt (b : bitbuf) : res (option N * bitbuf) := read_bits_opt b 1.

(** bitbuffer.rs:212-224 [read_bits_into_slice]: returns the bytes written to the slice.
    On [None] in the middle the code keeps what was read so far; the model returns [None]. *)
Fixpoint read_slice_loop (k : nat) (bits_remaining : nat) (b : bitbuf) (acc : list N) : res (option (list N) * bitbuf) :=
  match k with
  | O => Ok (Some acc, b)
  | S k' =>
      let bits_in_byte := Nat.min bits_remaining 8 in
      '(ov, b') <- read_bits_opt b bits_in_byte ;;
      match ov with
      | None => Ok (None, b')
      | Some v => read_slice_loop k' (bits_remaining - bits_in_byte) b' (acc ++ [shl8 (to_u8 v) (8 - bits_in_byte)])
      end
  end.
Definition read_bits_into_slice (b : bitbuf) (num_bits buf_len : nat) : res (option (list N) * bitbuf) :=
  let num_bytes := ((num_bits + 7) / 8)%nat in
  assert (num_bytes <=? buf_len)%nat ;;;
  read_slice_loop num_bytes num_bits b [].

(** bitbuffer.rs:226-235 [_realloc_tail] *)
Definition realloc_tail (b : bitbuf) (new_cap_bits : nat) : res bitbuf :=
  let new_cap_bytes := ((new_cap_bits + 7) / 8)%nat in
  assert (length (bytes b) <=? new_cap_bytes)%nat ;;;
  Ok (set_bytes b (bytes b ++ repeat 0 (new_cap_bytes - length (bytes b)))).

(** bitbuffer.rs:254-269 [_move_end] *)
Definition move_end (b : bitbuf) (needed_extra_bits : nat) : res bitbuf :=
  free_cap_bits <- sub_checked (cap b) (bend b) ;;
  let needed_total_bits := (bend b + needed_extra_bits)%nat in
  b' <- (if (free_cap_bits <? needed_extra_bits)%nat then
           let double_cap_bits := (cap b * 2)%nat in
           realloc_tail b (Nat.max needed_total_bits double_cap_bits)
         else Ok b) ;;
  Ok (set_end b' (bend b' + needed_extra_bits)).

(** bitbuffer.rs:272-276 [xor_bit] (value is a u8, shifted as u8) *)
Definition xor_bit (b : bitbuf) (value : N) : res bitbuf :=
  let index := (bpos b / 8)%nat in
  byte <- byte_at (bytes b) index ;;
  l <- byte_set (bytes b) index (N.lxor byte (shl8 value (7 - bpos b mod 8))) ;;
  Ok (set_pos (set_bytes b l) (bpos b + 1)).

(** bitbuffer.rs:311-328 [write_bit] *)
Definition write_bit (value : N) (b : bitbuf) : res bitbuf :=
  assert ((value =? 0) || (value =? 1)) ;;;
  b <- (if (bend b <? bpos b + 1)%nat then
          if autoexp b then move_end b 1 else Panic
        else Ok b) ;;
  let index := (bpos b / 8)%nat in
  let mask := shl8 1 (7 - bpos b mod 8) in
  byte <- byte_at (bytes b) index ;;
  l <- byte_set (bytes b) index (N.lor (N.land byte (not8 mask)) (shl8 value (7 - bpos b mod 8))) ;;
  Ok (set_pos (set_bytes b l) (bpos b + 1)).

(** bitbuffer.rs:395-401: full-byte loop of [write_bits]; [k] = [remaining / 8] iterations *)
Fixpoint wr_full (l : list N) (v : N) (k : nat) (cur remaining : nat) : res (list N) :=
  match k with
  | O => Ok l
  | S k' =>
      let byte_val := to_u8 (N.land (shr v (remaining - 8)) 255) in
      l' <- byte_set l (cur / 8) byte_val ;;
      wr_full l' v k' (cur + 8) (remaining - 8)
  end.

(** bitbuffer.rs:383-390 and 404-411: replace [h] bits of a byte, [shift] from the right *)
Definition wr_part (byte bits_to_write : N) (h shift : nat) : N :=
  let mask := N.shiftl (ones h) (N.of_nat shift) in
  N.lor (N.land byte (not8 (to_u8 mask))) (shl8 bits_to_write shift).

(** bitbuffer.rs:354-417 [write_bits] *)
Definition write_bits (value : N) (num_bits : nat) (b : bitbuf) : res bitbuf :=
  assert (num_bits <=? 64)%nat ;;;
  assert ((num_bits =? 64)%nat || (shr value num_bits =? 0)) ;;;
  b <- (if (bend b <? bpos b + num_bits)%nat then
          if autoexp b then move_end b num_bits else Panic
        else Ok b) ;;
  let remaining := num_bits in
  let cur := bpos b in
  let v := if (num_bits =? 64)%nat then value else N.land value (ones num_bits) in
  let head_offset := (cur mod 8)%nat in
  '(l, cur, remaining) <-
    (if (negb (head_offset =? 0) && (0 <? remaining))%nat%bool then
       let h := Nat.min remaining (8 - head_offset) in
       let idx := (cur / 8)%nat in
       byte <- byte_at (bytes b) idx ;;
       let bits_to_write := N.land (to_u8 (shr v (remaining - h))) (to_u8 (ones h)) in
       let shift := (8 - (head_offset + h))%nat in
       l <- byte_set (bytes b) idx (wr_part byte bits_to_write h shift) ;;
       Ok (l, (cur + h)%nat, (remaining - h)%nat)
     else Ok (bytes b, cur, remaining)) ;;
  let k := (remaining / 8)%nat in
  l <- wr_full l v k cur remaining ;;
  let cur := (cur + 8 * k)%nat in
  let remaining := (remaining - 8 * k)%nat in
  l <- (if (0 <? remaining)%nat then
          let idx := (cur / 8)%nat in
          byte <- byte_at l idx ;;
          let bits_to_write := N.land (to_u8 v) (to_u8 (ones remaining)) in
          let shift := (8 - (cur mod 8 + remaining))%nat in
          byte_set l idx (wr_part byte bits_to_write remaining shift)
        else Ok l) ;;
  Ok (set_pos (set_bytes b l) (bpos b + num_bits)).

(** bitbuffer.rs:331-338 [write_zeroes]; fuel is the number of bits (each iteration
    consumes at least one), exhaustion cannot happen and is a panic. *)
Fixpoint write_zeroes_loop (fuel bits_remaining : nat) (b : bitbuf) : res bitbuf :=
  if (bits_remaining =? 0)%nat then Ok b else
  match fuel with
  | O => Panic
  | S f =>
      let chunk_size := Nat.min bits_remaining 64 in
      b <- write_bits 0 chunk_size b ;;
      write_zeroes_loop f (bits_remaining - chunk_size) b
  end.
Definition write_zeroes (num_bits : nat) (b : bitbuf) : res bitbuf := write_zeroes_loop num_bits num_bits b.

(** bitbuffer.rs:341-349 [write_ones] *)
Fixpoint write_ones_loop (fuel bits_remaining : nat) (b : bitbuf) : res bitbuf :=
  if (bits_remaining =? 0)%nat then Ok b else
  match fuel with
  | O => Panic
  | S f =>
      let chunk_size := Nat.min bits_remaining 64 in
      let val := shr u64mask (64 - chunk_size) in
      b <- write_bits val chunk_size b ;;
      write_ones_loop f (bits_remaining - chunk_size) b
  end.
Definition write_ones (num_bits : nat) (b : bitbuf) : res bitbuf := write_ones_loop num_bits num_bits b.

(** bitbuffer.rs:468-470 [get_len_remaining] (underflow panics in debug builds) *)
Definition get_len_remaining (b : bitbuf) : res nat := sub_checked (bend b) (bpos b).
(** bitbuffer.rs:463-465 [get_len] *)
Definition get_len (b : bitbuf) : res nat := sub_checked (bend b) (bstart b).
(** bitbuffer.rs:473-475 [get_len_written], 478-480 [get_pos] *)
Definition get_pos (b : bitbuf) : res nat := sub_checked (bpos b) (bstart b).

(** bitbuffer.rs:421-433 [copy_bits]: (destination, source) -> both updated *)
Fixpoint copy_bits_loop (fuel bits_remaining : nat) (b src : bitbuf) : res (bitbuf * bitbuf) :=
  if (bits_remaining =? 0)%nat then Ok (b, src) else
  match fuel with
  | O => Panic
  | S f =>
      let bits_to_copy := Nat.min bits_remaining 64 in
      r <- get_len_remaining src ;;
      assert (bits_to_copy <=? r)%nat ;;;
      '(ov, src) <- read_bits_opt src bits_to_copy ;;
      v <- unwrap ov ;;
      b <- write_bits v bits_to_copy b ;;
      copy_bits_loop f (bits_remaining - bits_to_copy) b src
  end.
Definition copy_bits (num_bits : nat) (src b : bitbuf) : res (bitbuf * bitbuf) :=
  copy_bits_loop num_bits num_bits b src.

(** bitbuffer.rs:435-446 [copy_bits_from_bitarr] (the assert is write_bit's) *)
Fixpoint copy_bits_from_bitarr (buf : list N) (b : bitbuf) : res bitbuf :=
  match buf with
  | [] => Ok b
  | bit :: t =>
      assert ((bit =? 0) || (bit =? 1)) ;;;
      b <- write_bit bit b ;; copy_bits_from_bitarr t b
  end.

(** bitbuffer.rs:93-101 [from_bitarr] *)
Definition bb_from_bitarr (data : list N) : res bitbuf :=
  b <- copy_bits_from_bitarr data (bb_new (length data)) ;;
  Ok (set_pos b (bstart b)).

(** bitbuffer.rs:77-90 [from_bitstr]; characters are booleans, other characters (which panic) are not representable. *)
Fixpoint write_bools (l : list bool) (b : bitbuf) : res bitbuf :=
  match l with
  | [] => Ok b
  | x :: t => b <- write_bit (N.b2n x) b ;; write_bools t b
  end.
Definition bb_from_bitstr (s : list bool) : res bitbuf :=
  b <- write_bools s (bb_new (length s)) ;;
  Ok (set_pos b (bstart b)).

(** slice [l[i..j]], panics when [i > j] or [j > len] *)
Definition slice_checked {A} (l : list A) (i j : nat) : res (list A) :=
  if ((i <=? j) && (j <=? length l))%nat%bool then Ok (firstn (j - i) (skipn i l)) else Panic.

(** bitbuffer.rs:105-118 [from_bitbuffer] *)
Definition bb_from_bitbuffer (b : bitbuf) : res bitbuf :=
  let start_byte := (bstart b / 8)%nat in
  let end_byte := ((bend b + 7) / 8)%nat in
  l <- slice_checked (bytes b) start_byte end_byte ;;
  n <- get_len b ;;
  let s := (bstart b mod 8)%nat in
  Ok (mkbb l s s (s + n) false).

(** bitbuffer.rs:122-135 [from_bitbuffer_pos] *)
Definition bb_from_bitbuffer_pos (b : bitbuf) : res bitbuf :=
  let start_byte := (bpos b / 8)%nat in
  let end_byte := ((bend b + 7) / 8)%nat in
  l <- slice_checked (bytes b) start_byte end_byte ;;
  n <- get_len_remaining b ;;
  let s := (bpos b mod 8)%nat in
  Ok (mkbb l s s (s + n) false).

(** bitbuffer.rs:147-150: spread [n] bits of [v] into bytes 0/1, most significant first *)
Definition spread (v : N) (n : nat) : list N :=
  map (fun i => N.land (shr v (n - 1 - i)) 1) (seq 0 n).

(** bitbuffer.rs:138-151 [to_bitarr]; [num_bits] is the length of the output slice *)
Fixpoint to_bitarr_loop (fuel bits_remaining : nat) (b : bitbuf) : res (list N * bitbuf) :=
  if (bits_remaining =? 0)%nat then Ok ([], b) else
  match fuel with
  | O => Panic
  | S f =>
      let n := Nat.min bits_remaining 64 in
      '(ov, b) <- read_bits_opt b n ;;
      v <- unwrap ov ;;
      '(tl, b) <- to_bitarr_loop f (bits_remaining - n) b ;;
      Ok (spread v n ++ tl, b)
  end.
Definition to_bitarr (num_bits : nat) (b : bitbuf) : res (list N * bitbuf) := to_bitarr_loop num_bits num_bits b.

Fixpoint mapM {A B} (f : A -> res B) (l : list A) : res (list B) :=
  match l with
  | [] => Ok []
  | a :: t => x <- f a ;; r <- mapM f t ;; Ok (x :: r)
  end.

(** bitbuffer.rs:154-161 [to_bitstr] *)
Definition to_bitstr (b : bitbuf) : res (list bool) :=
  n <- get_len b ;;
  mapM (fun i => x <- read_bit_at_unchecked (bytes b) (bstart b + i) ;; Ok (x =? 1)) (seq 0 n).

(** bitbuffer.rs:454-460 [into_bitvec]: note the index [i], not [start + i] *)
Definition into_bitvec (b : bitbuf) : res (list N) :=
  n <- get_len b ;;
  mapM (fun i => read_bit_at_unchecked (bytes b) i) (seq 0 n).

(** bitbuffer.rs:449-451 [into_bytes] *)
Definition into_bytes (b : bitbuf) : list N := bytes b.

(** bitbuffer.rs:483-493 [seek] *)
Definition seek (offset : nat) (b : bitbuf) : res bitbuf :=
  let abs := (bstart b + offset)%nat in
  assert (abs <=? bend b)%nat ;;; Ok (set_pos b abs).

(** bitbuffer.rs:497-508 [seek_rel]; a negative target becomes a huge usize and fails the assert *)
Definition seek_rel (offset : Z) (b : bitbuf) : res bitbuf :=
  let new_pos := (Z.of_nat (bpos b) + offset)%Z in
  assert ((Z.of_nat (bstart b) <=? new_pos) && (new_pos <=? Z.of_nat (bend b)))%Z ;;;
  Ok (set_pos b (Z.to_nat new_pos)).

(** bitbuffer.rs:525-529 [set_raw_start] *)
Definition set_raw_start (s : nat) (b : bitbuf) : res bitbuf :=
  assert (s <=? bend b)%nat ;;; assert (s <=? bpos b)%nat ;;; Ok (set_start b s).
(** bitbuffer.rs:532-538 [set_raw_end] *)
Definition set_raw_end (e : nat) (b : bitbuf) : res bitbuf :=
  assert (e <=? cap b)%nat ;;; assert (bstart b <=? e)%nat ;;; assert (bpos b <=? e)%nat ;;; Ok (set_end b e).
(** bitbuffer.rs:541-545 [set_raw_pos] *)
Definition set_raw_pos (p : nat) (b : bitbuf) : res bitbuf :=
  assert (bstart b <=? p)%nat ;;; assert (p <=? bend b)%nat ;;; Ok (set_pos b p).

(** bitbuffer.rs:296-300: bytes of [data] to a word, most significant first *)
Fixpoint gather (data : list N) (data_pos k : nat) (acc : N) : res N :=
  match k with
  | O => Ok acc
  | S k' =>
      byte <- byte_at data data_pos ;;
      gather data (data_pos + 1) k' (N.lor (shl64 acc 8) byte)
  end.

(** bitbuffer.rs:280-308 [xor_bytearr]; inner [None] on running out of bits *)
Fixpoint xor_bytearr_loop (fuel bits_remaining data_pos : nat) (data : list N) (b : bitbuf) : res (option unit * bitbuf) :=
  if (bits_remaining =? 0)%nat then Ok (Some tt, b) else
  match fuel with
  | O => Panic
  | S f =>
      let chunk_bits := Nat.min bits_remaining 64 in
      '(ov, b) <- read_bits_opt b chunk_bits ;;
      match ov with
      | None => Ok (None, b)
      | Some val =>
          let db := ((chunk_bits + 7) / 8)%nat in
          xd <- gather data data_pos db 0 ;;
          let xd := shr xd ((8 - chunk_bits mod 8) mod 8) in
          b <- seek_rel (- Z.of_nat chunk_bits) b ;;
          b <- write_bits (N.lxor val xd) chunk_bits b ;;
          xor_bytearr_loop f (bits_remaining - chunk_bits) (data_pos + db) data b
      end
  end.
Definition xor_bytearr (data : list N) (num_bits : nat) (b : bitbuf) : res (option unit * bitbuf) :=
  xor_bytearr_loop num_bits num_bits 0 data b.
