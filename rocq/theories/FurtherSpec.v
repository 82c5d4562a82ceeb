(* The names of the extensions in the description of mining.configure (BIP 310). *)
From Coq Require Import String.
From Verif Require Import Base TextModel.
From Verif Require StratumConfigModel.

Definition protocol_name (x : StratumConfigModel.extension) : bytes :=
  match x with
  | StratumConfigModel.version_rolling => text "version-rolling"
  | StratumConfigModel.minimum_difficulty => text "minimum-difficulty"
  | StratumConfigModel.subscribe_extranonce => text "subscribe-extranonce"
  | StratumConfigModel.ext_info => text "info"
  end.

(* the parts of a name with a dot between any two *)
Fixpoint joined (ps : list bytes) : bytes :=
  match ps with
  | [] => []
  | [p] => p
  | p :: r => p ++ text "." ++ joined r
  end.
