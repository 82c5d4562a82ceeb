(* BRC-74 Merkle path format: merkle/BUMP.cpp, include/gigamonkey/merkle/BUMP.hpp.
   The JSON form (BUMP.cpp 83-139, 184-206) is in BumpJsonModel.v.
   [H] is Hash256.  ordst is the external ordered sequence: iteration is in ascending order of Offset,
   reverse gives the descending order; where insert puts an element whose Offset is already there
   (and whether it keeps both) is left to the parameter [ins]. *)
From Verif Require Import Base WireModel MerkleModel.
Local Open Scope N_scope.

Definition w64 (n : N) : N := n mod 18446744073709551616.

(* BUMP.hpp 56-60 *)
Definition flag_intermediate : byte := x00.
Definition flag_duplicate : byte := x01.
Definition flag_client : byte := x02.

(* BUMP.hpp 62-99 *)
Record node := mknode { n_offset : N; n_flag : byte; n_digest : option bytes }.
Definition is_duplicate (n : node) : bool := byte_eqb (n_flag n) flag_duplicate.
Definition is_client (n : node) : bool := byte_eqb (n_flag n) flag_client.
Definition dup_node (o : N) : node := mknode o flag_duplicate None.
(* BUMP.hpp 71-73 *)
Definition node_valid (n : node) : bool :=
  match n_digest n with Some _ => negb (is_duplicate n) | None => is_duplicate n end.

Definition level := list node.
Record bump := mkbump { bp_height : N; bp_path : list level }.
Definition empty_bump : bump := mkbump 0 [].

(* BUMP.hpp 122-124; data::valid of the external containers: all elements are valid *)
Definition bump_valid (b : bump) : bool :=
  negb (length (bp_path b) =? 0)%nat && forallb (forallb node_valid) (bp_path b).

(* ---- binary form ---- *)

(* BUMP.cpp 8-13 *)
Definition node_write (n : node) : bytes :=
  var_int_write (n_offset n) ++ n_flag n :: match n_digest n with Some d => d | None => [] end.
(* BUMP.cpp 15-32 *)
Definition node_read : reader node :=
  do o <- var_int_read;
  do f <- rd_byte;
  if byte_eqb f flag_duplicate then rd_ret (dup_node o)
  else do d <- rd_bytes 32; rd_ret (mknode o f (Some d)).
(* BUMP.hpp 96-98 *)
Definition node_size (n : node) : N := var_int_size (n_offset n) + (if is_duplicate n then 1 else 33).

(* BUMP.hpp 130-132 *)
Definition bump_depth (b : bump) : byte := n2b (N.of_nat (length (bp_path b))).
(* BUMP.cpp 34-43 *)
Definition bump_write (b : bump) : bytes :=
  var_int_write (bp_height b) ++ bump_depth b :: concat (map (var_seq_write node_write) (bp_path b)).
(* BUMP.cpp 71-81 *)
Definition bump_size (b : bump) : N :=
  fold_left (fun z nnn => fold_left (fun z n => z + node_size n) nnn (z + var_int_size (N.of_nat (length nnn))))
    (bp_path b) (var_int_size (bp_height b) + 1).

(* ordered insertion of something whose offset is not there yet *)
Fixpoint place {A} (off : A -> N) (x : A) (l : list A) : list A :=
  match l with
  | [] => [x]
  | y :: r => if off x <? off y then x :: l else y :: place off x r
  end.

Section Bump.
Variable H : bytes -> bytes.
Variable ins : forall A, (A -> N) -> A -> list A -> list A.
Definition insert : node -> level -> level := ins node n_offset.

(* BUMP.cpp 52-62 *)
Definition insert_all (l : list node) : level := fold_left (fun acc n => insert n acc) l [].
Fixpoint levels_read (depth : nat) : reader (list level) :=
  match depth with
  | O => rd_ret []
  | S k => do nodes <- var_seq_read node_read;
           do r <- levels_read k;
           rd_ret (insert_all nodes :: r)
  end.
(* BUMP.cpp 45-65 *)
Definition bump_read : reader bump :=
  do h <- var_int_read;
  do depth <- rd_byte;
  do tree <- levels_read (N.to_nat (b2n depth));
  rd_ret (mkbump h tree).
(* operator bytes, BUMP.cpp 166-172: None is an exception or a buffer overrun *)
Definition bump_bytes (b : bump) : option bytes :=
  if bump_valid b then buffer_write (bump_size b) (bump_write b) else None.
(* BUMP (bytes), BUMP.cpp 174-181 *)
Definition bump_of_bytes (b : bytes) : bump :=
  match bump_read b with Some (x, _) => x | None => empty_bump end.

(* ---- from a branch ---- *)

(* BUMP.cpp 67-69, on uint32 *)
Definition next_offset (o : N) : N := N.shiftr (N.lxor (w32 o) 2) 1.
(* BUMP.cpp 141-164.  The running digest [last] is never used.  [level0] is the content of the level
   before the sibling is inserted *)
Fixpoint to_path_loop (path_index : N) (lvl : level) (ds : digests) : list level :=
  match ds with
  | [] => []
  | m :: r =>
    let n := match m with Some d => mknode path_index flag_intermediate (Some d) | None => dup_node path_index end in
    insert n lvl :: to_path_loop (next_offset path_index) [] r
  end.
Definition to_path (b : branch) : list level :=
  let i := l_index (b_leaf b) in
  to_path_loop (w32 (N.lxor i 1)) [mknode i flag_client (Some (l_digest (b_leaf b)))] (b_digests b).
(* BUMP.cpp 195 *)
Definition bump_of_branch (height : N) (b : branch) : bump := mkbump height (to_path b).

(* ---- root and validation ---- *)

(* the merge loops of combine (BUMP.cpp 215-242) and path_next_layer (408-424): the order in which
   elements are inserted into the result *)
Fixpoint merge {A} (off : A -> N) (pick : A -> A -> A) (a : list A) : list A -> list A :=
  match a with
  | [] => fun b => b
  | x :: a' => fix inner (b : list A) : list A :=
      match b with
      | [] => x :: merge off pick a' []
      | y :: b' =>
        if off x <? off y then x :: merge off pick a' b
        else if off y <? off x then y :: inner b'
        else pick x y :: merge off pick a' b'
      end
  end.
Definition combine_pick (a b : node) : node :=
  if is_client a then a else if is_client b then b
  else if is_duplicate a then a else if is_duplicate b then b else a.
Definition combine (a b : level) : level :=
  insert_all (merge n_offset combine_pick (rev a) (rev b)).

(* step, BUMP.cpp 248-269, on the descending sequence.  Throw is validation_error *)
Fixpoint step_loop (nodes : list node) (result : level) : outcome unit level :=
  match nodes with
  | [] => Ret result
  | x :: y :: r =>
    if (n_offset x / 2 =? n_offset y / 2) && (w64 (n_offset y + 1) =? n_offset x) then
      match n_digest y, (if is_duplicate x then n_digest y else n_digest x) with
      | Some dy, Some dx => step_loop r (insert (mknode (n_offset x / 2) flag_intermediate (Some (H (dy ++ dx)))) result)
      | _, _ => Undef
      end
    else Throw tt
  | _ => Undef
  end.
Definition step (x : level) : outcome unit level :=
  if Nat.odd (length x) then Throw tt else step_loop (rev x) [].

(* root, BUMP.cpp 298-305 *)
Fixpoint root_from (current : level) (path : list level) : outcome unit bytes :=
  match path with
  | [] => Ret (match current with
               | [n] => match n_digest n with Some d => d | None => zero_digest end
               | _ => zero_digest
               end)
  | next :: r => match step (combine current next) with
                 | Ret c => root_from c r
                 | Throw e => Throw e
                 | Undef => Undef
                 end
  end.
Definition bump_root (b : bump) : outcome unit bytes := root_from [] (bp_path b).
(* validate, BUMP.cpp 272-278: None is undefined behaviour *)
Definition bump_validate (b : bump) (expected : bytes) : option bool :=
  match bump_root b with
  | Ret r => Some (bytes_eqb expected r)
  | Throw _ => Some false
  | Undef => None
  end.

(* ---- paths ---- *)

(* smash, BUMP.cpp 366-383: a given node, or a computed one with its two children *)
Inductive smash := Given (n : node) | Made (n : node) (l r : smash).
Definition s_node (z : smash) : node := match z with Given n => n | Made n _ _ => n end.
Definition s_offset (z : smash) : N := n_offset (s_node z).

(* smash_together, BUMP.cpp 398-406 *)
Definition smash_together (a b : smash) : option smash :=
  match n_digest (s_node a), (if is_duplicate (s_node b) then n_digest (s_node a) else n_digest (s_node b)) with
  | Some da, Some db => Some (Made (mknode (s_offset a / 2) flag_intermediate (Some (H (da ++ db)))) a b)
  | _, _ => None
  end.
(* BUMP.cpp 426-431: to_smash[1] of a sequence with one element is undefined *)
Fixpoint smash_pairs (l : list smash) (acc : list smash) : option (list smash) :=
  match l with
  | [] => Some acc
  | a :: b :: r => match smash_together a b with
                   | Some z => smash_pairs r (ins smash s_offset z acc)
                   | None => None
                   end
  | _ => None
  end.
(* path_next_layer, BUMP.cpp 408-434 *)
Definition path_next_layer (generated : list smash) (provided : level) : option (list smash) :=
  smash_pairs (fold_left (fun acc z => ins smash s_offset z acc)
                 (merge s_offset (fun a _ => a) (rev generated) (map Given (rev provided))) []) [].
Fixpoint smash_all (smashes : list smash) (path : list level) : option (list smash) :=
  match path with
  | [] => Some smashes
  | n :: r => match path_next_layer smashes n with Some s => smash_all s r | None => None end
  end.

(* read_down, BUMP.cpp 436-447, with the external map's policy for a key already there as in MerkleModel.
   None: undefined, or the map throws *)
Fixpoint read_down (dup : option (path -> path -> path)) (m : path_map) (z : smash) (d : digests) : option path_map :=
  if is_client (s_node z) then
    match n_digest (s_node z) with
    | Some k => path_insert dup m k (mkpath (s_offset z) d)
    | None => None
    end
  else match z with
  | Given _ => Some m
  | Made _ l r =>
    match (if is_duplicate (s_node r) then n_digest (s_node l) else n_digest (s_node r)), n_digest (s_node l) with
    | Some dr, Some dl =>
      match read_down dup m l (Some dr :: d) with
      | Some m' => read_down dup m' r (Some dl :: d)
      | None => None
      end
    | _, _ => None
    end
  end.
(* paths, BUMP.cpp 388-394 *)
Definition bump_paths (dup : option (path -> path -> path)) (b : bump) : option path_map :=
  match smash_all [] (bp_path b) with
  | Some (z :: _) => read_down dup [] z []
  | _ => None
  end.

(* ---- addition ---- *)

(* BUMP.cpp 315-319: rest of an empty sequence is undefined *)
Fixpoint halves (available : list N) (acc : list N) : option (list N) :=
  match available with
  | [] => Some acc
  | x :: _ :: r => halves r (ins N (fun n => n) (x / 2) acc)
  | _ => None
  end.
Fixpoint drop_below (x : N) (l : list N) : list N :=
  match l with
  | [] => []
  | y :: r => if y <? x then drop_below x r else l
  end.
(* the loop of remove_unnecessary, BUMP.cpp 323-347; results: available nodes, remaining nodes.
   [fuel] bounds the iterations by the two sequences together *)
Fixpoint remove_loop (fuel : nat) (current : level) (generated available : list N) (av : list N) (kept : level) : option (list N * level) :=
  match current, generated with
  | [], [] => Some (av, kept)
  | _, _ =>
    match fuel with
    | O => None
    | S f =>
      let take_current n current' :=
        let a := drop_below (w64 (2 * n_offset n)) available in
        let kept' := match a with
                     | x :: y :: _ => if (x =? w64 (2 * n_offset n)) && (y =? w64 (w64 (2 * n_offset n) + 1)) then kept else insert n kept
                     | _ => insert n kept
                     end in
        let generated' := match generated with
                          | g :: gr => if n_offset n =? g then gr else generated
                          | [] => []
                          end in
        remove_loop f current' generated' a (ins N (fun n => n) (n_offset n) av) kept' in
      match current, generated with
      | n :: current', [] => take_current n current'
      | n :: current', g :: gr =>
        if n_offset n <=? g then take_current n current'
        else remove_loop f current gr available (ins N (fun n => n) g av) kept
      | [], g :: gr => remove_loop f [] gr available (ins N (fun n => n) g av) kept
      | [], [] => None
      end
    end
  end.
(* BUMP.cpp 350-361 *)
Fixpoint remove_levels (path : list level) (generated : list N) : option (list level) :=
  match path with
  | [] => Some []
  | l :: r =>
    match halves generated [] with
    | None => None
    | Some g =>
      match remove_loop (length l + length g) l g generated [] [] with
      | None => None
      | Some (av, kept) => option_map (cons kept) (remove_levels r av)
      end
    end
  end.
Definition remove_unnecessary_nodes (b : bump) : option bump :=
  option_map (mkbump (bp_height b)) (remove_levels (bp_path b) []).

(* BUMP.cpp 280-296: first (right) of a shorter path is undefined *)
Fixpoint combine_paths (left right : list level) : option (list level) :=
  match left, right with
  | [], _ => Some []
  | a :: l, b :: r => option_map (cons (combine a b)) (combine_paths l r)
  | _ :: _, [] => None
  end.
Definition bump_plus (a b : bump) : option bump :=
  if negb (bp_height a =? bp_height b) then Some empty_bump
  else match combine_paths (bp_path a) (bp_path b) with
  | None => None
  | Some p => remove_unnecessary_nodes (mkbump (bp_height a) p)
  end.
(* BUMP (height, map), BUMP.cpp 208-213 *)
Fixpoint plus_all (b : bump) (m : path_map) : option bump :=
  match m with
  | [] => Some b
  | e :: r => match bump_plus b (bump_of_branch (bp_height b) (path_branch e)) with
              | Some c => plus_all c r
              | None => None
              end
  end.
Definition bump_of_map (height : N) (m : path_map) : option bump :=
  match m with
  | [] => Some (mkbump height [])
  | e :: _ => plus_all (mkbump height (map (fun _ => []) (p_digests (snd e)))) m
  end.

End Bump.
