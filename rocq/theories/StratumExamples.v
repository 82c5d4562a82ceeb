(* Data for the examples of C50: the messages of test/testStratum.cpp 40-66. *)
From Coq Require Import String.
From Verif Require Import Base TextModel WireModel WireSpec MerkleModel WorkModel JsonModel StratumModel StratumSpec.
Local Open Scope N_scope.

Definition hx (s : string) : bytes := match hex_read (text s) with Some b => b | None => [] end.
Definition js (s : string) : json := JString (text s).

Definition ex_notify_params : list json :=
  [js "bf"; js "4d16b6f85af6e2198f44ae2a6de67f78487ae5611b77c6c0440b921e00000000";
   js "01000000010000000000000000000000000000000000000000000000000000000000000000ffffffff20020862062f503253482f04b8864e5008";
   js "072f736c7573682f000000000100f2052a010000001976a914d23fcdf86f7e756a64a7a9688ef9903327048ed988ac00000000";
   JArray []; js "00000002"; js "1c2ac4af"; js "504e86b9"; JBool false].
Definition ex_notify_json : json :=
  JObject [(text "id", JNull); (text "method", js "mining.notify"); (text "params", JArray ex_notify_params)].
Definition ex_notify : notify :=
  mknotify (text "bf") (hx "f8b6164d19e2f65a2aae448f787fe66d61e57a48c0c6771b1e920b4400000000")
    (hx "01000000010000000000000000000000000000000000000000000000000000000000000000ffffffff20020862062f503253482f04b8864e5008")
    (hx "072f736c7573682f000000000100f2052a010000001976a914d23fcdf86f7e756a64a7a9688ef9903327048ed988ac00000000")
    [] 2 472564911 1347323577 false.
Definition ex_branch : json :=
  JArray [js "0000000100000002000000030000000400000005000000060000000700000008"; js "0000001100000012000000130000001400000015000000160000001700000018"].

Definition ex_submit_json : json :=
  JObject [(text "id", JUint 4); (text "method", js "mining.submit");
           (text "params", JArray [js "slush.miner1"; js "bf"; js "00000001"; js "504e86ed"; js "b2957c02"])].
Definition ex_share : sshare :=
  mksshare (text "slush.miner1") (text "bf") {| sh_timestamp := 1347323629; sh_nonce := 2996141058; sh_extra2 := hx "00000001"; sh_bits := None |}.
Definition ex_share_bits : sshare :=
  mksshare (text "slush.miner1") (text "bf") {| sh_timestamp := 1347323629; sh_nonce := 2996141058; sh_extra2 := hx "00000001"; sh_bits := Some 536862720%Z |}.

Definition ex_subscribed : subscribed :=
  mksubd [mksub mining_set_difficulty (text "b4b6693b72a50c7116db18d6497cac52"); mksub mining_notify (text "ae6812eb4cd7735a302a8a9dd95cf71f")] (mkextra 134217730 4).
