(* Merkle trees, proofs, the miner's proof server and the pruned ("dual") tree:
   include/gigamonkey/merkle/{proof,tree,dual,server}.hpp, merkle.cpp, merkle/dual.cpp.
   Not modelled here: stream output, orderings other than the ones the loops use.
   The hash function is the parameter [H] (Bitcoin::Hash256, an external library function). *)
From Verif Require Import Base.
Local Open Scope N_scope.

(* uint32 arithmetic *)
Definition w32 (n : N) : N := n mod 4294967296.

(* digest256: 32 bytes.  The default digest is all zero.  data's digest::valid () is external;
   test/testMerkle.cpp 13-16 shows that the zero digest is the invalid one. *)
Notation digest := (list Byte.byte) (only parsing).
Definition zero_digest : digest := repeat x00 32.
Definition digest_valid (d : digest) : bool := negb (bytes_eqb d zero_digest).

(* stack<maybe<digest>>, first element first (proof.hpp 21-24) *)
Definition digests := list (option digest).
(* Digests.valid (): external; every digest that is present is valid *)
Definition digests_valid (ds : digests) : bool :=
  forallb (fun m => match m with Some d => digest_valid d | None => true end) ds.

(* proof.hpp 62-146 *)
Record path := mkpath { p_index : N; p_digests : digests }.
Record leaf := mkleaf { l_digest : digest; l_index : N }.
Record branch := mkbranch { b_leaf : leaf; b_digests : digests }.
Record proof := mkproof { pr_branch : branch; pr_root : digest }.

(* data::tree<digest> *)
Inductive dt := Nil | Node (d : digest) (l r : dt).
Definition dt_empty (t : dt) : bool := match t with Nil => true | _ => false end.
(* root (t); undefined on the empty tree *)
Definition dt_root (t : dt) : option digest := match t with Nil => None | Node d _ _ => Some d end.
Definition dt_leaf (d : digest) : dt := Node d Nil Nil.

(* tree.hpp 14-35 *)
Record tree := mktree { t_tree : dt; t_width : N; t_height : N }.

Definition leaf_eqb (a b : leaf) : bool :=
  bytes_eqb (l_digest a) (l_digest b) && (l_index a =? l_index b).
Definition maybe_eqb (a b : option digest) : bool :=
  match a, b with Some x, Some y => bytes_eqb x y | None, None => true | _, _ => false end.
Fixpoint digests_eqb (a b : digests) : bool :=
  match a, b with
  | [], [] => true
  | x :: a', y :: b' => maybe_eqb x y && digests_eqb a' b'
  | _, _ => false
  end.
(* proof.hpp 169-175 *)
Definition branch_eqb (a b : branch) : bool :=
  leaf_eqb (b_leaf a) (b_leaf b) && digests_eqb (b_digests a) (b_digests b).

Section Merkle.
Variable H : bytes -> digest.

(* hash_concatinated, proof.hpp 13-16 *)
Definition hcat (a b : digest) : digest := H (a ++ b).

(* merkle.cpp 15-23 *)
Fixpoint round (l : list digest) : list digest :=
  match l with
  | a :: b :: r => hcat a b :: round r
  | [a] => [hcat a a]
  | [] => []
  end.

(* root (list<digest>), merkle.cpp 142-146: [while (l.size () > 1) l = round (l)].
   [fuel] bounds the rounds; None: not finished (shown impossible with fuel = length) *)
Fixpoint root_loop (fuel : nat) (l : list digest) : option digest :=
  match l with
  | [] => None
  | [a] => Some a
  | _ => match fuel with O => None | S f => root_loop f (round l) end
  end.
Definition root_list (l : list digest) : option digest :=
  match l with [] => Some zero_digest | _ => root_loop (length l) l end.

(* leaf::next, proof.hpp 84-89 *)
Definition leaf_next (l : leaf) (d : digest) : leaf :=
  mkleaf (if N.odd (l_index l) then hcat d (l_digest l) else hcat (l_digest l) d) (l_index l / 2).

Definition sibling (m : option digest) (l : leaf) : digest :=
  match m with Some d => d | None => l_digest l end.

(* root (leaf, digests), merkle.cpp 148-154 *)
Fixpoint climb (l : leaf) (ds : digests) : leaf :=
  match ds with
  | [] => l
  | m :: r => climb (leaf_next l (sibling m l)) r
  end.
Definition root_leaf (l : leaf) (ds : digests) : digest := l_digest (climb l ds).

(* path::derive_root, proof.hpp 92-94 *)
Definition derive_root (p : path) (d : digest) : digest := root_leaf (mkleaf d (p_index p)) (p_digests p).

(* branch::root, branch::rest, proof.hpp 117-124 *)
Definition branch_root (b : branch) : digest := root_leaf (b_leaf b) (b_digests b).
Definition branch_rest (b : branch) : branch :=
  match b_digests b with
  | [] => b
  | m :: r => mkbranch (leaf_next (b_leaf b) (sibling m (b_leaf b))) r
  end.
(* branch::valid, proof::valid, proof.hpp 202-204, 212-214, 242-244 *)
Definition branch_valid (b : branch) : bool := digest_valid (l_digest (b_leaf b)) && digests_valid (b_digests b).
Definition proof_valid (p : proof) : bool :=
  digest_valid (pr_root p) && branch_valid (pr_branch p) && bytes_eqb (pr_root p) (branch_root (pr_branch p)).

Definition empty_proof : proof := mkproof (mkbranch (mkleaf zero_digest 0) []) zero_digest.

(* one level of tree::make, merkle.cpp 99-112 and 121-135; the first loop works on digests that become
   one-node trees, which is the second loop on [map dt_leaf].  None: first () of an empty list. *)
Fixpoint build_level (next : list digest) (last : list dt) : option (list dt) :=
  match next with
  | [] => Some []
  | d :: next' =>
    match last with
    | a :: b :: last' => option_map (cons (Node d a b)) (build_level next' last')
    | [a] => option_map (cons (Node d a Nil)) (build_level next' [])
    | [] => None
    end
  end.

(* merkle.cpp 114-136 *)
Fixpoint make_loop (fuel : nat) (nr : list digest) (trees : list dt) (height : N) : option (list dt * N) :=
  if (1 <? N.of_nat (length nr)) then
    match fuel with
    | O => None
    | S f => match build_level (round nr) trees with
             | None => None
             | Some ts => make_loop f (round nr) ts (w32 (height + 1))
             end
    end
  else Some (trees, height).

(* tree::make, merkle.cpp 83-140.  On the empty list line 85 constructs a tree and drops it, so the
   function goes on and finally takes the first element of an empty list: undefined. *)
Definition tree_make (h : list digest) : option tree :=
  match h with
  | [a] => Some (mktree (dt_leaf a) 1 1)
  | _ =>
    let width := w32 (N.of_nat (length h)) in
    match build_level (round h) (map dt_leaf h) with
    | None => None
    | Some ts =>
      match make_loop (length h) (round h) ts 2 with
      | Some (t :: _, height) => Some (mktree t width height)
      | _ => None
      end
    end
  end.

(* append_proofs, merkle.cpp 25-35.  None: root () of an empty tree *)
Fixpoint append_proofs (t : dt) (index : N) (l : digests) (r : digest) (height : N) : option (list proof) :=
  match t with
  | Nil => None
  | Node d lt rt =>
    if height =? 1 then Some [mkproof (mkbranch (mkleaf d index) l) r]
    else
      match dt_root lt, rt with
      | None, _ => None
      | Some dl, Nil => append_proofs lt (w32 (2 * index)) (Some dl :: l) r (w32 (height + 4294967295))
      | Some dl, Node dr _ _ =>
        match append_proofs lt (w32 (2 * index)) (Some dr :: l) r (w32 (height + 4294967295)),
              append_proofs rt (w32 (2 * index + 1)) (Some dl :: l) r (w32 (height + 4294967295)) with
        | Some a, Some b => Some (a ++ b)
        | _, _ => None
        end
      end
  end.

(* tree::proofs, merkle.cpp 156-170 *)
Definition tree_proofs (t : tree) : option (list proof) :=
  if (t_height t =? 0) || (t_width t =? 0) then Some []
  else match t_tree t with
  | Nil => None
  | Node d lt rt =>
    if t_height t =? 1 then Some [mkproof (mkbranch (mkleaf d 0) []) d]
    else match dt_root lt, dt_root rt with
    | Some dl, Some dr =>
      match append_proofs lt 0 [Some dr] d (t_height t - 1), append_proofs rt 1 [Some dl] d (t_height t - 1) with
      | Some a, Some b => Some (a ++ b)
      | _, _ => None
      end
    | _, _ => None
    end
  end.

(* check_tree, merkle.cpp 57-79.  None: a shift of 32 or more, or a look inside an empty tree *)
Fixpoint check_tree (t : dt) (width height : N) : option bool :=
  if height =? 0 then Some false
  else match t with
  | Nil => if height =? 1 then Some false else None
  | Node d lt rt =>
    if height =? 1 then Some ((width =? 1) && dt_empty lt && dt_empty rt && digest_valid d)
    else match dt_root lt with
    | None => Some false
    | Some dl =>
      match rt with
      | Nil =>
        match check_tree lt width (height - 1) with
        | None => None
        | Some false => Some false
        | Some true => Some (bytes_eqb d (hcat dl dl))
        end
      | Node dr _ _ =>
        if 32 <=? height - 2 then None else
        let lw := 2 ^ (height - 2) in
        match check_tree rt (w32 (width + 4294967296 - lw)) (height - 1) with
        | None => None
        | Some false => Some false
        | Some true =>
          match check_tree lt lw (height - 1) with
          | None => None
          | Some false => Some false
          | Some true => Some (bytes_eqb d (hcat dl dr))
          end
        end
      end
    end
  end.

(* tree::valid, merkle.cpp 172-175 *)
Definition tree_valid (t : tree) : option bool :=
  if (t_height t =? 0) || (t_width t =? 0) then Some false
  else check_tree (t_tree t) (t_width t) (t_height t).

(* the loop of tree::operator [], merkle.cpp 185-195: the test [(i >> next_height) & 0] is always
   false, so the walk goes right only for the last index.  [k] counts next_height down. *)
Fixpoint at_loop (k : nat) (t : dt) (last : bool) (ds : digests) : option (dt * digests) :=
  match k with
  | O => Some (t, ds)
  | S k' => match t with
            | Nil => None
            | Node d lt rt => at_loop k' (if last then rt else lt) last (Some d :: ds)
            end
  end.
(* tree::operator [], merkle.cpp 177-198 *)
Definition tree_at (t : tree) (i : N) : option proof :=
  if t_width t <=? i then Some empty_proof
  else match at_loop (N.to_nat (t_height t - 1)) (t_tree t) (i =? t_width t - 1) [] with
  | Some (Node d _ _, ds) =>
    match dt_root (t_tree t) with
    | Some r => Some (mkproof (mkbranch (mkleaf d i) ds) r)
    | None => None
    end
  | _ => None
  end.

(* ---- server ---- *)

(* data::map<digest, uint32>.  What insert does with a key that is already there is decided by the
   external library: [dup] combines old and new value, or None if it throws. *)
Definition index_map := list (digest * N).
Fixpoint index_insert (dup : option (N -> N -> N)) (m : index_map) (k : digest) (v : N) : option index_map :=
  match m with
  | [] => Some [(k, v)]
  | (k', v') :: r =>
    if bytes_eqb k k' then match dup with Some f => Some ((k', f v' v) :: r) | None => None end
    else option_map (cons (k', v')) (index_insert dup r k v)
  end.
(* Indices[d]; 0 when absent, as line 440 expects *)
Fixpoint index_get (m : index_map) (k : digest) : N :=
  match m with
  | [] => 0
  | (k', v) :: r => if bytes_eqb k k' then v else index_get r k
  end.

(* server.hpp 14-36 *)
Record server := mkserver { s_digests : list digest; s_indices : index_map; s_width : N; s_height : N }.

(* the width loop, merkle.cpp 335-341 and 391-397: total number of digests and number of levels *)
Fixpoint totals (fuel : nat) (width total height : N) : option (N * N) :=
  if 1 <? width then
    match fuel with
    | O => None
    | S f => let w := w32 (width + 1) / 2 in totals f w (w32 (total + w)) (w32 (height + 1))
    end
  else Some (total, height).

(* merkle.cpp 400-412.  None: writing past the end, or not finished *)
Fixpoint fill (fuel : nat) (v acc : list digest) (total : N) : option (list digest) :=
  match fuel with
  | O => None
  | S f =>
    let acc' := acc ++ v in
    if total <? N.of_nat (length acc') then None
    else if N.of_nat (length acc') =? total then Some acc'
    else fill f (round v) acc' total
  end.

(* line 417 *)
Fixpoint index_all (dup : option (N -> N -> N)) (m : index_map) (l : list digest) (x : N) : option index_map :=
  match l with
  | [] => Some m
  | d :: r => match index_insert dup m d (x + 1) with
              | None => None
              | Some m' => index_all dup m' r (x + 1)
              end
  end.

Definition empty_server : server := mkserver [] [] 0 0.

(* server::server (leaf_digests), merkle.cpp 385-419 *)
Definition server_make (dup : option (N -> N -> N)) (l : list digest) : option server :=
  match l with
  | [] => Some empty_server
  | _ =>
    let width := w32 (N.of_nat (length l)) in
    match totals (length l) width width 1 with
    | None => None
    | Some (total, height) =>
      match fill (S (length l)) l [] total with
      | None => None
      | Some ds =>
        match index_all dup [] (firstn (N.to_nat width) ds) 0 with
        | None => None
        | Some m => Some (mkserver ds m width height)
        end
      end
    end
  end.

(* write_at_height, merkle.cpp 37-47 *)
Fixpoint digests_at_height (height : nat) (t : dt) : option (list digest) :=
  match t with
  | Nil => None
  | Node d lt rt =>
    match height with
    | O => Some [d]
    | S h =>
      match rt with
      | Nil => digests_at_height h lt
      | _ => match digests_at_height h lt, digests_at_height h rt with
             | Some a, Some b => Some (a ++ b)
             | _, _ => None
             end
      end
    end
  end.
(* merkle.cpp 345-350: leaves first *)
Fixpoint digests_from_height (height : nat) (t : dt) : option (list digest) :=
  match digests_at_height height t with
  | None => None
  | Some a =>
    match height with
    | O => Some a
    | S h => option_map (app a) (digests_from_height h t)
    end
  end.
(* server::server (tree), merkle.cpp 329-351; Indices stays empty.
   None: the array was sized for fewer digests than are written *)
Definition server_of_tree (t : tree) : option server :=
  if (t_width t =? 0) || (t_height t =? 0) then Some empty_server
  else match totals 64 (t_width t) (t_width t) 1, digests_from_height (N.to_nat (t_height t - 1)) (t_tree t) with
  | Some (total, _), Some ds =>
    if total <? N.of_nat (length ds) then None
    else Some (mkserver (ds ++ repeat zero_digest (N.to_nat total - length ds)) [] (t_width t) (t_height t))
  | _, _ => None
  end.

(* server::operator tree, merkle.cpp 353-383.  [ds]: the digests from the iterator b on;
   None: the iterator runs past the end, or not finished *)
Fixpoint pair_trees (ts : list dt) (ds : list digest) : option (list dt * list digest) :=
  match ts with
  | [] => Some ([], ds)
  | a :: r =>
    match ds with
    | [] => None
    | d :: ds' =>
      match r with
      | [] => Some ([Node d a Nil], ds')
      | b :: r' => match pair_trees r' ds' with
                   | None => None
                   | Some (ts', ds'') => Some (Node d a b :: ts', ds'')
                   end
      end
    end
  end.
Fixpoint tree_loop (fuel : nat) (ts : list dt) (ds : list digest) : option dt :=
  match ts with
  | [] => None
  | [t] => Some t
  | _ => match fuel with
         | O => None
         | S f => match pair_trees ts ds with
                  | None => None
                  | Some (ts', ds') => tree_loop f ts' ds'
                  end
         end
  end.
Definition tree_of_server (s : server) : option tree :=
  if (s_width s =? 0) || (s_height s =? 0) then Some (mktree Nil 0 0)
  else if N.of_nat (length (s_digests s)) <? s_width s then None
  else
    let w := N.to_nat (s_width s) in
    match tree_loop (length (s_digests s)) (map dt_leaf (firstn w (s_digests s))) (skipn w (s_digests s)) with
    | None => None
    | Some t => Some (mktree t (s_width s) (s_height s))
    end.

(* Digests[-1]: data's cross indexes from the end; test/testMerkle.cpp 49 needs it to be the last element *)
Definition last_digest (l : list digest) : option digest :=
  match rev l with [] => None | d :: _ => Some d end.
Definition server_root (s : server) : option digest := last_digest (s_digests s).

(* get_server_proof, merkle.cpp 421-436; width is a uint32, so 33 rounds are enough *)
Fixpoint server_siblings (fuel : nat) (x : list digest) (width i cumulative : N) : option digests :=
  if 1 <? width then
    match fuel with
    | O => None
    | S f =>
      let off := if N.odd i then 4294967295 else if i =? width - 1 then 0 else 1 in
      match nth_error x (N.to_nat (w32 (cumulative + i + off))) with
      | None => None
      | Some d => option_map (cons (Some d)) (server_siblings f x (w32 (width + 1) / 2) (i / 2) (w32 (cumulative + width)))
      end
    end
  else Some [].
Definition server_proof (x : list digest) (width index : N) : option proof :=
  match server_siblings 33 x width index 0, nth_error x (N.to_nat index), last_digest x with
  | Some ds, Some d, Some r => Some (mkproof (mkbranch (mkleaf d index) ds) r)
  | _, _, _ => None
  end.

(* server::operator [], merkle.cpp 438-443 *)
Definition server_at (s : server) (d : digest) : option proof :=
  let index := index_get (s_indices s) d in
  if index =? 0 then Some empty_proof else server_proof (s_digests s) (s_width s) (index - 1).

(* server::proofs, merkle.cpp 445-449 *)
Fixpoint server_proofs_from (n : nat) (s : server) (i : N) : option (list proof) :=
  match n with
  | O => Some []
  | S n' => match server_proof (s_digests s) (s_width s) i, server_proofs_from n' s (i + 1) with
            | Some p, Some ps => Some (p :: ps)
            | _, _ => None
            end
  end.
Definition server_proofs (s : server) : option (list proof) := server_proofs_from (N.to_nat (s_width s)) s 0.

(* ---- dual ---- *)

(* data::map<digest, path> in the library's iteration order *)
Definition path_map := list (digest * path).
Record dual := mkdual { d_paths : path_map; d_root : digest }.
Definition empty_dual : dual := mkdual [] zero_digest.

(* the outcome of code that may run for ever: the result, undefined behaviour, or still running
   when the given number of loop iterations is used up *)
Inductive run (A : Type) := Done (a : A) | Bad | More.
Arguments Done {A}. Arguments Bad {A}. Arguments More {A}.

Definition path_branch (e : digest * path) : branch :=
  mkbranch (mkleaf (fst e) (p_index (snd e))) (p_digests (snd e)).

(* Paths.valid (): external; keys and paths are valid *)
Definition paths_valid (m : path_map) : bool :=
  forallb (fun e => digest_valid (fst e) && digests_valid (p_digests (snd e))) m.

(* ordst<branch>: [ins x l] inserts into the ordered sequence.  How the external library orders equal
   elements is left open: the parameter [ins]. *)
Section Dual.
Variable ins : branch -> list branch -> list branch.

(* the inner loop, dual.cpp 26-29 *)
Definition rest_one (current : list branch) (b : branch) : list branch :=
  let n := branch_rest b in
  match current with
  | [] => ins n current
  | f :: _ => if branch_eqb f n then current else ins n current
  end.
(* one turn of the loop, dual.cpp 21-29: [next] is a stack, so it comes out reversed *)
Definition rest_all (current : list branch) : list branch := fold_left rest_one (rev current) [].

(* dual.cpp 18-33 *)
Fixpoint dual_loop (fuel : nat) (current : list branch) : run digest :=
  match current with
  | [b] => match b_digests b with
           | [] => Done (l_digest (b_leaf b))
           | _ => match fuel with O => More | S f => dual_loop f (rest_all current) end
           end
  | _ => match fuel with O => More | S f => dual_loop f (rest_all current) end
  end.

(* dual::valid, dual.cpp 11-35 *)
Definition dual_valid (fuel : nat) (d : dual) : run bool :=
  if negb (digest_valid (d_root d)) || negb (paths_valid (d_paths d)) || match d_paths d with [] => true | _ => false end
  then Done false
  else match dual_loop fuel (fold_left (fun c e => ins (path_branch e) c) (d_paths d) []) with
  | Done r => Done (bytes_eqb (d_root d) r)
  | Bad => Bad
  | More => More
  end.
End Dual.

(* Paths.contains / operator [], dual.hpp 39-48 *)
Fixpoint path_get (m : path_map) (k : digest) : option path :=
  match m with
  | [] => None
  | (k', p) :: r => if bytes_eqb k k' then Some p else path_get r k
  end.
Definition dual_at (d : dual) (k : digest) : proof :=
  match path_get (d_paths d) k with
  | None => empty_proof
  | Some p => mkproof (mkbranch (mkleaf k (p_index p)) (p_digests p)) (d_root d)
  end.

(* Paths.insert, with the external behaviour on a key already there as for [index_insert] *)
Fixpoint path_insert (dup : option (path -> path -> path)) (m : path_map) (k : digest) (v : path) : option path_map :=
  match m with
  | [] => Some [(k, v)]
  | (k', v') :: r =>
    if bytes_eqb k k' then match dup with Some f => Some ((k', f v' v) :: r) | None => None end
    else option_map (cons (k', v')) (path_insert dup r k v)
  end.
Fixpoint path_insert_all (dup : option (path -> path -> path)) (m : path_map) (l : list (digest * path)) : option path_map :=
  match l with
  | [] => Some m
  | (k, v) :: r => match path_insert dup m k v with
                   | None => None
                   | Some m' => path_insert_all dup m' r
                   end
  end.

(* branch::operator entry, proof.hpp 228-234 *)
Definition branch_entry (b : branch) : digest * path :=
  (l_digest (b_leaf b), mkpath (l_index (b_leaf b)) (b_digests b)).

(* dual::dual (const tree &), merkle.cpp 316-321 *)
Definition dual_of_tree (dup : option (path -> path -> path)) (t : tree) : option dual :=
  if t_width t =? 0 then Some empty_dual
  else match dt_root (t_tree t), tree_proofs t with
  | Some r, Some ps =>
    match path_insert_all dup [] (map (fun p => branch_entry (pr_branch p)) ps) with
    | Some m => Some (mkdual m r)
    | None => None
    end
  | _, _ => None
  end.

(* std::map<uint32, digests> of dual_by_index, merkle.cpp 203, sorted by key; the stored stack has the
   leaf digest in front of the path *)
Definition index_branches := list (N * digests).
Fixpoint branches_set (m : index_branches) (k : N) (v : digests) : index_branches :=
  match m with
  | [] => [(k, v)]
  | (k', v') :: r => if k <? k' then (k, v) :: m else if k =? k' then (k, v) :: r else (k', v') :: branches_set r k v
  end.
Fixpoint branches_get (m : index_branches) (k : N) : option digests :=
  match m with
  | [] => None
  | (k', v') :: r => if k =? k' then Some v' else branches_get r k
  end.

(* the loop of add_nearest, merkle.cpp 207-210: [k] counts height down *)
Fixpoint meet_height (k : nat) (index nearest : N) : N :=
  match k with
  | O => 1
  | S k' => if index / 2 ^ N.of_nat k =? nearest / 2 ^ N.of_nat k then meet_height k' index nearest
            else N.of_nat k + 1
  end.
(* add_nearest, merkle.cpp 206-229.  None: a shift of 32 or more, first or rest of an empty stack *)
Definition add_nearest (m : index_branches) (index : N) (d : digests) (nearest : N) : option index_branches :=
  let top := (length d - 1)%nat in
  if (32 <=? N.of_nat top) then None else
  let height := N.to_nat (meet_height top index nearest) in
  match branches_get m nearest with
  | None => None
  | Some x =>
    if (length x <? S height)%nat || (length d <? S height)%nat then None
    else Some (branches_set m index (firstn (S height) d ++ skipn (S height) x))
  end.

(* the binary search, merkle.cpp 273-277 *)
Fixpoint bisect (fuel : nat) (leaves : list N) (index : N) (min max : nat) : option (nat * nat) :=
  if (1 <? max - min)%nat then
    match fuel with
    | O => None
    | S f =>
      let mid := ((max - min) / 2 + min)%nat in
      match nth_error leaves mid with
      | None => None
      | Some x => if x <? index then bisect f leaves index mid max else bisect f leaves index min mid
      end
    end
  else Some (min, max).

(* x >> k on uint32; None when the shift count is 32 or more *)
Definition shr32 (x k : N) : option N := if 32 <=? k then None else Some (x / 2 ^ k).
Definition same_half (a b h : N) : option bool :=
  match shr32 a h, shr32 b h with Some x, Some y => Some (x =? y) | _, _ => None end.

(* dual_by_index::add, merkle.cpp 231-284: None is undefined behaviour, Some None the answer false *)
Definition add (m : index_branches) (p : branch) : option (option index_branches) :=
  let index := w32 (l_index (b_leaf p)) in
  let d := Some (l_digest (b_leaf p)) :: b_digests p in
  match branches_get m index with
  | Some d' => Some (if digests_eqb d' d then Some m else None)
  | None =>
    let half := w32 (N.of_nat (length d) + 4294967294) in
    let leaves := map fst m in
    match nth_error leaves 0, nth_error leaves (length leaves - 1) with
    | Some lo, Some hi =>
      if index <? lo then
        match same_half lo index half with
        | None => None
        | Some true => option_map Some (add_nearest m index d lo)
        | Some false => Some (Some (branches_set m index d))
        end
      else if hi <? index then
        match same_half hi index half with
        | None => None
        | Some true => option_map Some (add_nearest m index d hi)
        | Some false => Some (Some (branches_set m index d))
        end
      else
        match bisect (length leaves) leaves index 0 (length leaves - 1) with
        | None => None
        | Some (mn, mx) =>
          match nth_error leaves mn, nth_error leaves mx with
          | Some a, Some b =>
            match same_half a index half with
            | None => None
            | Some true => option_map Some (add_nearest m index d a)
            | Some false => option_map Some (add_nearest m index d b)
            end
          | _, _ => None
          end
        end
    | _, _ => None
    end
  end.

(* add_all, merkle.cpp 299-302 *)
Fixpoint add_all (m : index_branches) (ps : list branch) : option (option index_branches) :=
  match ps with
  | [] => Some (Some m)
  | p :: r => match add m p with
              | Some (Some m') => add_all m' r
              | x => x
              end
  end.

(* dual_by_index (const dual &), merkle.cpp 287-291 *)
Definition by_index (m : path_map) : index_branches :=
  fold_left (fun acc e => branches_set acc (w32 (p_index (snd e))) (Some (fst e) :: p_digests (snd e))) m [].

(* operator dual, merkle.cpp 293-297.  None: an absent first digest is dereferenced, or the map throws *)
Fixpoint from_index (dup : option (path -> path -> path)) (acc : path_map) (m : index_branches) : option path_map :=
  match m with
  | [] => Some acc
  | (k, Some d :: v) :: r => match path_insert dup acc d (mkpath k v) with
                             | None => None
                             | Some acc' => from_index dup acc' r
                             end
  | _ => None
  end.

(* dual::operator +, merkle.cpp 308-314.  [ord]: the order in which proofs () lists the branches of d *)
Definition dual_plus (ins : branch -> list branch -> list branch) (ord : list branch -> list branch)
    (dup : option (path -> path -> path)) (fuel : nat) (a d : dual) : run dual :=
  match dual_valid ins fuel a with
  | Bad => Bad
  | More => More
  | Done false => Done d
  | Done true =>
    if negb (bytes_eqb (d_root a) (d_root d)) then Done empty_dual
    else match add_all (by_index (d_paths a)) (ord (map path_branch (d_paths d))) with
    | None => Bad
    | Some None => Done empty_dual
    | Some (Some m) =>
      match from_index dup [] m with
      | None => Bad
      | Some ps => Done (mkdual ps (d_root a))
      end
    end
  end.

End Merkle.
Arguments Done {A}. Arguments Bad {A}. Arguments More {A}.
