(* BIP 44: accounts and wallets.
   Source: include/gigamonkey/schema/bip_44.hpp 14-94, include/gigamonkey/schema/bip_39.hpp 32-54,
   include/gigamonkey/schema/hd.hpp 77-79, 86-88, 131-133, 209-229, include/gigamonkey/wif.hpp 126-133.
   Parameters: those of HdModel and Bip39Model, and [wide] for the uncompressed form of a public key.
   electrum_sv_wallet is declared but has no definition. *)
From Verif Require Import Base WireModel MerkleModel TextModel HdModel Bip39Words Bip39Model.
Local Open Scope N_scope.

(* bip_44.hpp 16-28 *)
Definition purpose : N := harden 44.
Definition coin_bitcoin : N := harden 0.
Definition coin_cash : N := harden 145.
Definition coin_sv : N := harden 236.
Definition coin_testnet : N := harden 1.
Definition receive_index : N := 0.
Definition change_index : N := 1.
(* bip_44.hpp 83-92 *)
Definition simply_cash_coin : N := coin_cash.
Definition moneybutton_coin : N := coin_bitcoin.
Definition relay_x_coin : N := coin_sv.
Definition centbee_coin : N := 0.

(* bip_44.hpp 30-32 *)
Definition derivation_path (account : N) (change : bool) (index coin : N) : list N :=
  [purpose; coin; harden account; if change then 1 else 0; index].

(* std::to_string of an unsigned number *)
Definition to_string (n : N) : bytes := if n =? 0 then [n2b 48] else rev (map (fun d => n2b (d + 48)) (digits 10 n)).

Definition run_map {A B} (f : A -> B) (r : run A) : run B := match r with Done a => Done (f a) | Bad => Bad | More => More end.

Section Bip44.
Variable hmac : bytes -> bytes -> bytes.
Variable h160 : bytes -> bytes.
Variable pub : bytes -> bytes.
Variable wide : bytes -> bytes.
Variable tweak : bytes -> bytes -> bytes.
Variable pbkdf2 : bytes -> bytes -> N -> N -> bytes.
Variable fuel : nat.

(* hd.hpp 131-133 *)
Definition to_secret (x : xkey) : secret := mksecret (x_net x) (x_key x) true.
(* hd.hpp 77-79, 86-88 *)
Definition pubkey_address (x : xkey) : net * bytes := (x_net x, h160 (x_key x)).
(* wif.hpp 126-133 *)
Definition secret_address (s : secret) : net * bytes :=
  (s_net s, h160 (if s_compressed s then pub (s_value s) else wide (pub (s_value s)))).

(* bip_44.hpp 34-50 *)
Definition public_receive (x : xkey) (index : N) : run (net * bytes) :=
  run_map pubkey_address (derive_pubkey_path hmac h160 tweak fuel x [receive_index; index]).
Definition public_change (x : xkey) (index : N) : run (net * bytes) :=
  run_map pubkey_address (derive_pubkey_path hmac h160 tweak fuel x [change_index; index]).
Definition public_account (x : xkey) (a : N) : run xkey := derive_pubkey_path hmac h160 tweak fuel x [a].
(* bip_44.hpp 52-68 *)
Definition account_public (x : xkey) : xkey := to_public pub x.
Definition secret_receive (x : xkey) (index : N) : run secret :=
  run_map to_secret (derive_secret_path hmac h160 pub fuel x [receive_index; index]).
Definition secret_change (x : xkey) (index : N) : run secret :=
  run_map to_secret (derive_secret_path hmac h160 pub fuel x [change_index; index]).
(* bip_44.hpp 70-80 *)
Definition from_root (x : xkey) (coin account : N) : run xkey :=
  derive_secret_path hmac h160 pub fuel x [purpose; coin; harden account].

(* bip_39.hpp 34-44 *)
Definition coin_wallet (coin : N) (words : bytes) (account : N) (n : net) : run xkey :=
  match seed_read pbkdf2 English words [] with
  | Ret seed => from_root (secret_from_seed hmac seed n) coin account
  | _ => Bad
  end.
Definition simply_cash_wallet := coin_wallet simply_cash_coin.
Definition moneybutton_wallet := coin_wallet moneybutton_coin.
Definition relay_x_wallet := coin_wallet relay_x_coin.
(* bip_39.hpp 50-53 *)
Definition centbee_wallet (words : bytes) (pin : N) (n : net) : run xkey :=
  match seed_read pbkdf2 English words (to_string pin) with
  | Ret seed => derive_secret_path hmac h160 pub fuel (secret_from_seed hmac seed n) [purpose; centbee_coin]
  | _ => Bad
  end.

(* hd.hpp 185-229: a source of keys and one of addresses, asked once; both count in uint32 *)
Definition key_next (x : xkey) (index : N) : run secret * N :=
  (run_map to_secret (derive_secret_path hmac h160 pub fuel x [index]), w32 (index + 1)).
Definition address_next (x : xkey) (index : N) : run (net * bytes) * N :=
  (run_map pubkey_address (derive_pubkey_path hmac h160 tweak fuel x [index]), w32 (index + 1)).
End Bip44.
