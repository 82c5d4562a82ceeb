(* What a text form shows of itself: the letters it begins with and how many follow. *)
From Verif Require Import Base TextModel.
From Coq Require Import String List.
Import ListNotations.
Local Open Scope list_scope.

(* s is one of the prefixes followed by k further characters *)
Definition begins (ps : list string) (k : nat) (s : bytes) : Prop :=
  exists p t, In p ps /\ s = text p ++ t /\ length t = k.

(* the letters of the text of a secret, and how many characters follow *)
Definition wif_letters (n : net) (compressed : bool) : list string :=
  match n, compressed with
  | NetMain, false => ["5"%string]
  | NetMain, true => ["K"; "L"]%string
  | _, false => ["9"%string]
  | _, true => ["c"%string]
  end.
Definition wif_rest (compressed : bool) : nat := if compressed then 51 else 50.
(* the letters of extended keys *)
Definition xprv_letters (n : net) : list string := match n with NetMain => ["xprv"%string] | _ => ["tprv"%string] end.
Definition xpub_letters (n : net) : list string := match n with NetMain => ["xpub"%string] | _ => ["tpub"%string] end.
