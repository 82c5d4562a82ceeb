(* What ARC's messages say, independently of the functions that read and write them. *)
From Coq Require Import String.
From Verif Require Import Base WireModel MerkleModel TextModel TextSpec JsonModel ScriptModel MachineModel SighashModel ExtModel ExtSpec TscModel ArcModel.
Local Open Scope list_scope.
Local Open Scope N_scope.

(* a member of an object *)
Definition holds (k : string) (j v : json) : Prop := exists o, j = JObject o /\ obj_find (text k) o = Some v.
Definition numeric (j : json) : Prop := (exists z, j = JInt z) \/ (exists n, j = JUint n) \/ (exists f, j = JFloat f).

(* the body of an answer on the health of the service *)
Definition health_says (j : json) (healthy : bool) (version reason : bytes) : Prop :=
  holds "healthy" j (JBool healthy) /\ holds "version" j (JString version) /\
  (holds "reason" j (JString reason) \/ (holds "reason" j JNull /\ reason = [])).
(* a policy *)
Definition policy_says (j script_size sigops tx_size fee : json) : Prop :=
  holds "maxscriptsizepolicy" j script_size /\ numeric script_size /\ holds "maxtxsigopscountspolicy" j sigops /\ numeric sigops /\
  holds "maxtxsizepolicy" j tx_size /\ numeric tx_size /\ holds "miningFee" j fee /\ exists o, fee = JObject o.
(* the body of an answer on a transaction *)
Definition status_says (j : json) (hash : bytes) (height : N) (txid path status : bytes) : Prop :=
  holds "blockHash" j (JString hash) /\ holds "blockHeight" j (JUint height) /\ holds "txid" j (JString txid) /\
  holds "merklePath" j (JString path) /\ holds "txStatus" j (JString status).
Definition a_status (j : json) : Prop := exists h n t p s, status_says j h n t p s.
Definition stamped (j : json) : Prop := exists v, holds "timestamp" j v.
(* the statuses of errors that are accepted whatever the body says *)
Definition error_statuses : list N := [409; 422; 460; 461; 462; 463; 464; 465; 466; 467; 468; 469; 473].

(* ---- requests *)
Definition header_of (s : submit) (k v : bytes) : Prop :=
  (k = text "Content-Type" /\ content_text (sm_content s) = Ret v) \/
  (k = text "X-CallbackURL" /\ sm_url s = Some v) \/
  (exists b, v = bool_text b /\
    ((k = text "X-FullStatusUpdates" /\ sm_full s = Some b) \/ (k = text "X-SkipFeeValidation" /\ sm_skip_fee s = Some b) \/
     (k = text "X-SkipScriptValidation" /\ sm_skip_script s = Some b) \/ (k = text "X-SkipTxValidation" /\ sm_skip_tx s = Some b) \/
     (k = text "X-CumulativeFeeValidation" /\ sm_cumulative s = Some b))) \/
  (k = text "X-MaxTimeout" /\ exists z, sm_timeout s = Some z /\ v = int_text z) \/
  (k = text "X-CallbackToken" /\ sm_token s = Some v) \/
  (k = text "X-WaitFor" /\ exists n, sm_wait s = Some n /\ wait_text n = Ret v).

(* the transactions a body carries, as a server reads it *)
Inductive octets_carry : bytes -> list xtx -> Prop :=
| carry_nil : octets_carry [] []
| carry_cons b t r l : xtx_read b = Some (t, r) -> octets_carry r l -> octets_carry b (t :: l).
Definition hex_carries (s : bytes) (t : xtx) : Prop := exists b, hex_read s = Some b /\ xtx_read b = Some (t, []).
Definition json_carries (j : json) (t : xtx) : Prop := exists s, holds "rawTx" j (JString s) /\ hex_carries s t.
(* texts between line ends *)
Inductive lines : bytes -> list bytes -> Prop :=
| lines_none : lines [] []
| lines_last l : ~ In x0a l -> l <> [] -> lines l [l]
| lines_more l b ls : ~ In x0a l -> lines b ls -> ls <> [] -> lines (l ++ x0a :: b) (l :: ls).
Definition carries_tx (parse : bytes -> option json) (c : content) (b : bytes) (t : xtx) : Prop :=
  match c with
  | COctet => xtx_read b = Some (t, [])
  | CJson => exists j, parse b = Some j /\ json_carries j t
  | CText => hex_carries b t
  | COther => False
  end.
Definition carries_txs (parse : bytes -> option json) (c : content) (b : bytes) (l : list xtx) : Prop :=
  match c with
  | COctet => octets_carry b l
  | CJson => exists a, parse b = Some (JArray a) /\ Forall2 json_carries a l
  | CText => exists ls, lines b ls /\ Forall2 hex_carries ls l
  | COther => False
  end.

(* ---- the policy *)
(* a policy whose numbers are unsigned *)
Definition policy_plain (j : json) (script_size sigops tx_size satoshis bytes : N) : Prop :=
  holds "maxscriptsizepolicy" j (JUint script_size) /\ holds "maxtxsigopscountspolicy" j (JUint sigops) /\ holds "maxtxsizepolicy" j (JUint tx_size) /\
  exists m, holds "miningFee" j m /\ holds "satoshis" m (JUint satoshis) /\ holds "bytes" m (JUint bytes).
(* no script is longer *)
Definition scripts_within (n : N) (t : xtx) : Prop :=
  (forall i, In i (xt_inputs t) -> len (in_script (xi_input i)) <= n) /\ (forall o, In o (xt_outputs t) -> len (out_script o) <= n).
(* the operations that check signatures, multiple ones counted as twenty *)
Fixpoint checks_in (s : bytes) : N :=
  match s with
  | [] => 0
  | o :: r => (if (b2n o =? 172) || (b2n o =? 173) then 1 else if (b2n o =? 174) || (b2n o =? 175) then 20 else 0) + checks_in r
  end.
Definition checks (t : xtx) : N :=
  fold_right (fun s n => checks_in s + n) 0 (map (fun i => in_script (xi_input i)) (xt_inputs t) ++ map out_script (xt_outputs t)).
