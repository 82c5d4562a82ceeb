(* Accounts as BIP 44 has them. *)
From Verif Require Import Base WireModel MerkleModel TextModel HdModel HdSpec Bip39Words Bip39Model Bip44Model.
From Coq Require Import String List.
Import ListNotations.
Local Open Scope list_scope.
Local Open Scope N_scope.

(* m / purpose' / coin_type' / account' / change / address_index *)
Definition bip44_text (coin account : N) (change : bool) (index : N) : bytes :=
  text "44'/" ++ decimal coin ++ text "'/" ++ decimal account ++ text "'/" ++ (if change then text "1" else text "0") ++ text "/" ++ decimal index.
Definition and_then {A B} (r : run A) (f : A -> run B) : run B := match r with Done a => f a | Bad => Bad | More => More end.
(* what a source gives when it is asked k times *)
Fixpoint take_source {A} (next : N -> A * N) (index : N) (k : nat) : list A :=
  match k with O => [] | S k => fst (next index) :: take_source next (snd (next index)) k end.
