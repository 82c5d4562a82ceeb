(* Wire formats: var_int, var_string, var_sequence, transactions, headers, blocks. *)
From Verif Require Import Base.
Local Open Scope N_scope.

(* include/gigamonkey/p2p/var_int.hpp 101-103: var_int::size *)
Definition var_int_size (x : N) : N :=
  if x <=? 0xfc then 1 else if x <=? 0xffff then 3 else if x <=? 0xffffffff then 5 else 9.

(* p2p/var_int.cpp 32-37: var_int::write *)
Definition var_int_write (x : N) : bytes :=
  if x <=? 0xfc then [n2b x]
  else if x <=? 0xffff then n2b 0xfd :: le 2 x
  else if x <=? 0xffffffff then n2b 0xfe :: le 4 x
  else n2b 0xff :: le 8 x.

(* p2p/var_int.cpp 8-30: var_int::read *)
Definition var_int_read : reader N :=
  do b <- rd_byte;
  if b2n b <=? 0xfc then rd_ret (b2n b)
  else if b2n b =? 0xfd then rd_le 2
  else if b2n b =? 0xfe then rd_le 4
  else rd_le 8.

(* var_int.hpp 109-111: var_string::write *)
Definition var_string_write (s : bytes) : bytes := var_int_write (len s) ++ s.

(* p2p/var_int.cpp 39-45: var_string::read.  Simplification: allocation of the announced size is not
   modelled (std::bad_alloc for huge sizes), nor the int counter of the loop, which differs only for
   sizes of 2^31 and more. *)
Definition var_string_read : reader bytes :=
  do n <- var_int_read; rd_bytes n.

(* var_int.hpp 113-115: var_string::size *)
Definition var_string_size (n : N) : N := n + var_int_size n.

(* var_int.hpp 146-151: var_sequence::write *)
Definition var_seq_write {X} (w : X -> bytes) (l : list X) : bytes :=
  var_int_write (N.of_nat (length l)) ++ concat (map w l).

(* var_int.hpp 129-144: var_sequence::read — elements are prepended one by one, then reversed. *)
Fixpoint rd_prepend {X} (r : reader X) (n : nat) (acc : list X) : reader (list X) :=
  match n with
  | O => rd_ret acc
  | S n' => do x <- r; rd_prepend r n' (x :: acc)
  end.

Definition var_seq_read {X} (r : reader X) : reader (list X) :=
  do n <- var_int_read;
  do l <- rd_prepend r (N.to_nat n) [];
  rd_ret (rev l).

(* var_int.hpp 153-158: var_sequence::size (no wrap-around modelled: sizes below 2^64) *)
Definition var_seq_size {X} (size : X -> N) (l : list X) : N :=
  fold_left (fun x n => x + size n) l (var_int_size (N.of_nat (length l))).

(* ---------------------------------------------------------------- outpoint *)
(* include/gigamonkey/timechain.hpp 135-168; a digest is kept as its 32 bytes in memory order. *)
Record outpoint := { op_digest : bytes; op_index : N }.

(* timechain.hpp 393-395 *)
Definition outpoint_write (o : outpoint) : bytes := op_digest o ++ le 4 (op_index o).
(* timechain.hpp 397-399 *)
Definition outpoint_read : reader outpoint :=
  do d <- rd_bytes 32; do i <- rd_le 4; rd_ret {| op_digest := d; op_index := i |}.

(* timechain.hpp 339-341 *)
Definition outpoint_eqb (a b : outpoint) : bool :=
  bytes_eqb (op_digest a) (op_digest b) && (op_index a =? op_index b).

(* ---------------------------------------------------------------- input *)
(* timechain.hpp 170-194 *)
Record input := { in_ref : outpoint; in_script : bytes; in_seq : N }.

(* timechain.hpp 405-407 *)
Definition input_write (i : input) : bytes :=
  outpoint_write (in_ref i) ++ var_string_write (in_script i) ++ le 4 (in_seq i).
(* timechain.hpp 401-403 *)
Definition input_read : reader input :=
  do o <- outpoint_read; do s <- var_string_read; do q <- rd_le 4;
  rd_ret {| in_ref := o; in_script := s; in_seq := q |}.
(* timechain.hpp 467-469 *)
Definition input_size (i : input) : N :=
  40 + var_int_size (len (in_script i)) + len (in_script i).

(* ---------------------------------------------------------------- output *)
(* timechain.hpp 196-219; satoshi is an int64_little (satoshi.hpp 14) *)
Record output := { out_value : Z; out_script : bytes }.

(* timechain.hpp 413-415 *)
Definition output_write (o : output) : bytes :=
  sle 8 (out_value o) ++ var_string_write (out_script o).
(* timechain.hpp 409-411 *)
Definition output_read : reader output :=
  do v <- rd_sle 8; do s <- var_string_read; rd_ret {| out_value := v; out_script := s |}.
(* timechain.hpp 471-473 *)
Definition output_size (o : output) : N :=
  8 + var_int_size (len (out_script o)) + len (out_script o).

(* ---------------------------------------------------------------- transaction *)
(* timechain.hpp 221-272; the cached Hash is modelled separately (CacheModel). *)
Record tx := { tx_version : Z; tx_inputs : list input; tx_outputs : list output; tx_locktime : N }.

(* timechain.hpp 421-423 *)
Definition tx_write (t : tx) : bytes :=
  sle 4 (tx_version t) ++ var_seq_write input_write (tx_inputs t) ++
  var_seq_write output_write (tx_outputs t) ++ le 4 (tx_locktime t).
(* timechain.hpp 417-419 *)
Definition tx_read : reader tx :=
  do v <- rd_sle 4; do i <- var_seq_read input_read; do o <- var_seq_read output_read; do l <- rd_le 4;
  rd_ret {| tx_version := v; tx_inputs := i; tx_outputs := o; tx_locktime := l |}.

(* timechain.cpp 64-72 (sums assumed below 2^64) *)
Definition tx_size (t : tx) : N :=
  8 + var_int_size (N.of_nat (length (tx_inputs t))) + var_int_size (N.of_nat (length (tx_outputs t))) +
  fold_left (fun s i => s + input_size i) (tx_inputs t) 0 +
  fold_left (fun s o => s + output_size o) (tx_outputs t) 0.

(* timechain.hpp 246: default constructor *)
Definition tx_default : tx := {| tx_version := 0; tx_inputs := []; tx_outputs := []; tx_locktime := 0 |}.

(* timechain.cpp 124-129: transaction::operator bytes *)
Definition tx_bytes (t : tx) : option bytes := buffer_write (tx_size t) (tx_write t).

(* timechain.cpp 90-97: transaction (slice): default value on end of stream, trailing bytes ignored *)
Definition tx_of_slice (b : bytes) : tx :=
  match tx_read b with Some (t, _) => t | None => tx_default end.

(* timechain.cpp 110-122: input / output operator bytes *)
Definition input_bytes (i : input) : option bytes := buffer_write (input_size i) (input_write i).
Definition output_bytes (o : output) : option bytes := buffer_write (output_size o) (output_write o).

(* ---------------------------------------------------------------- header *)
(* timechain.hpp 81-132 *)
Record header := { h_version : Z; h_previous : bytes; h_merkle_root : bytes;
                   h_timestamp : N; h_target : N; h_nonce : N }.

(* timechain.hpp 385-387 and timechain.cpp 270-275 *)
Definition header_write (h : header) : bytes :=
  sle 4 (h_version h) ++ h_previous h ++ h_merkle_root h ++
  le 4 (h_timestamp h) ++ le 4 (h_target h) ++ le 4 (h_nonce h).
(* timechain.hpp 389-391 *)
Definition header_read : reader header :=
  do v <- rd_sle 4; do p <- rd_bytes 32; do m <- rd_bytes 32;
  do t <- rd_le 4; do g <- rd_le 4; do n <- rd_le 4;
  rd_ret {| h_version := v; h_previous := p; h_merkle_root := m;
            h_timestamp := t; h_target := g; h_nonce := n |}.

(* x.range<a, b> () on a fixed-size slice *)
Definition range (a b : nat) (x : bytes) : bytes := firstn (b - a) (skipn a x).

(* timechain.cpp 20-46, timechain.hpp 433-439, 111-117: field accessors of an 80-byte slice *)
Definition header_of_slice (x : bytes) : header :=
  {| h_version := sle_val (range 0 4 x);
     h_previous := range 4 36 x;
     h_merkle_root := range 36 68 x;
     h_timestamp := le_val (range 68 72 x);
     h_target := le_val (range 72 76 x);
     h_nonce := le_val (range 76 80 x) |}.

(* ---------------------------------------------------------------- block *)
(* timechain.hpp 282-317 *)
Record block := { bl_header : header; bl_txs : list tx }.

(* timechain.hpp 429-431 *)
Definition block_write (b : block) : bytes :=
  header_write (bl_header b) ++ var_seq_write tx_write (bl_txs b).
(* timechain.hpp 425-427 *)
Definition block_read : reader block :=
  do h <- header_read; do t <- var_seq_read tx_read; rd_ret {| bl_header := h; bl_txs := t |}.
(* timechain.cpp 74-79 *)
Definition block_size (b : block) : N :=
  80 + var_int_size (N.of_nat (length (bl_txs b))) + fold_left (fun s t => s + tx_size t) (bl_txs b) 0.

(* timechain.cpp 140-146: the loop of block::transactions; each slice runs from the position before
   to the position after reading one transaction. *)
Fixpoint tx_slices (n : nat) (b : bytes) : option (list bytes) :=
  match n with
  | O => Some []
  | S n' => match tx_read b with
            | None => None
            | Some (_, r) =>
              match tx_slices n' r with
              | None => None
              | Some l => Some (firstn (length b - length r) b :: l)
              end
            end
  end.

(* timechain.cpp 131-149: block::transactions (slice); [None] is the exception end_of_stream *)
Definition block_transactions (b : bytes) : option (list bytes) :=
  match header_read b with
  | None => None
  | Some (_, r) => match var_int_read r with
                   | None => None
                   | Some (n, r') => tx_slices (N.to_nat n) r'
                   end
  end.

(* ---------------------------------------------------------------- slice scanners *)
(* work/ASICBoost.hpp 27 *)
Definition asicboost_mask : N := 0xE0001FFF.

(* timechain.cpp 151-160: read_transaction_version — only the accept/reject decision is used *)
Definition read_tx_version : reader bool :=
  do v <- rd_le 4; rd_ret ((v =? 1) || (N.land v asicboost_mask =? 2)).

(* it_rdr::skip *)
Definition rd_skip (n : N) : reader unit := do b <- rd_bytes n; rd_ret tt.

(* slice {begin, size}: [Undef] would be reading beyond the buffer *)
Definition mk_slice (b : bytes) (size : N) : option bytes :=
  if len b <? size then None else Some (firstn (N.to_nat size) b).

(* timechain.cpp 168-176: scan_input; 64-bit wrap-around of script_size + 4 and of the slice size *)
Definition scan_input (b : bytes) : option (option bytes * bytes) :=
  match (do o <- outpoint_read; do n <- var_int_read; do u <- rd_skip ((n + 4) mod 2 ^ 64); rd_ret n) b with
  | None => None
  | Some (n, r) => Some (mk_slice b ((n + 40 + var_int_size n) mod 2 ^ 64), r)
  end.

(* timechain.cpp 197-214: transaction::input (slice, index), the do-while loop; [i] counts down.
   Ret [] is the empty slice returned on end of stream or index out of range. *)
Fixpoint scan_inputs (i : nat) (b : bytes) : outcome unit bytes :=
  match scan_input b with
  | None => Ret []
  | Some (None, _) => Undef
  | Some (Some s, r) =>
    if len s =? 0 then Ret []
    else match i with O => Ret s | S i' => scan_inputs i' r end
  end.

Definition tx_input_slice (b : bytes) (i : N) : outcome unit bytes :=
  match (do ok <- read_tx_version; if (ok : bool) then (do n <- var_int_read; rd_ret (Some n)) else rd_ret None) b with
  | None => Ret []
  | Some (None, _) => Ret []
  | Some (Some n, r) => if (n =? 0) || (n <=? i) then Ret [] else scan_inputs (N.to_nat i) r
  end.

(* timechain.cpp 178-185 and 216-233: transaction::output (slice, index).  After a good version the
   loop on line 183 reads the uninitialised variable i: undefined behaviour, unless reading the
   version or the number of inputs already ended the stream. *)
Definition tx_output_slice (b : bytes) (i : N) : outcome unit bytes :=
  match (do ok <- read_tx_version; if (ok : bool) then (do n <- var_int_read; rd_ret (Some n)) else rd_ret None) b with
  | None => Ret []
  | Some (None, _) => Ret []
  | Some (Some _, _) => Undef
  end.
