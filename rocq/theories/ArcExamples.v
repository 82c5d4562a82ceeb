(* Sample data for the examples about ARC. *)
From Coq Require Import String Lia ZifyBool ZifyNat ZifyN.
From Verif Require Import Base BaseProofs WireModel WireSpec MerkleModel TextModel TextSpec JsonModel ScriptModel MachineModel SighashModel ExtModel ExtSpec ExtExamples TscModel ArcModel ArcSpec ArcProofs ArcPolicy.
Local Open Scope list_scope.
Local Open Scope N_scope.

Definition obj (l : list (string * json)) : json := JObject (map (fun p => (text (fst p), snd p)) l).
Definition js (s : string) : json := JString (text s).
Definition ex_health : json := obj [("healthy", JBool true); ("reason", JNull); ("version", js "1.0")]%string.
Definition ex_policy (sigops satoshis bytes : N) : json :=
  obj [("maxscriptsizepolicy", JUint 1000); ("maxtxsigopscountspolicy", JUint sigops); ("maxtxsizepolicy", JUint 100000);
       ("miningFee", obj [("bytes", JUint bytes); ("satoshis", JUint satoshis)])]%string.
Definition ex_policy_no_fee : json :=
  obj [("maxscriptsizepolicy", JUint 1000); ("maxtxsigopscountspolicy", JUint 0); ("maxtxsizepolicy", JUint 100000); ("miningFee", obj [])]%string.
Definition ex_policy_body : json := obj [("policy", ex_policy 10 50 1000); ("timestamp", JUint 5)]%string.
Definition ex_status : json :=
  obj [("blockHash", js "00"); ("blockHeight", JUint 7); ("merklePath", js ""); ("timestamp", js "now"); ("txStatus", js "MINED"); ("txid", js "11")]%string.
(* a text of JSON: a letter for the sample value *)
Definition ex_parse (b : bytes) : option json :=
  if bytes_eqb b (text "h") then Some ex_health
  else if bytes_eqb b (text "p") then Some ex_policy_body
  else if bytes_eqb b (text "s") then Some ex_status
  else if bytes_eqb b (text "a") then Some (JArray [ex_status])
  else if bytes_eqb b (text "n") then Some JNull
  else match b with
       | x7b :: s => Some (JObject [(k_raw, JString s)])
       | x5b :: s => Some (JArray [JObject [(k_raw, JString s)]])
       | _ => None
       end.
Definition ex_dump (j : json) : bytes :=
  match j with
  | JObject [(_, JString s)] => x7b :: s
  | JArray [JObject [(_, JString s)]] => x5b :: s
  | _ => []
  end.
Definition ex_submit : submit := mksubmit CText (Some (text "http://x")) (Some true) (Some (-5)%Z) None (Some false) None None (Some (text "tok")) (Some 8).

Lemma ex_policy_plain sigops satoshis bytes : policy_plain (ex_policy sigops satoshis bytes) 1000 sigops 100000 satoshis bytes.
Proof.
  unfold policy_plain. split; [eexists; split; reflexivity|]. split; [eexists; split; reflexivity|]. split; [eexists; split; reflexivity|].
  eexists. split; [eexists; split; reflexivity|]. split; eexists; split; reflexivity.
Qed.
(* one satoshi for as many bytes as one likes *)
Definition ex_cheap (n : nat) : xtx := {| xt_version := 2; xt_inputs := [ex_in 1]; xt_outputs := repeat (ex_out 0) n; xt_locktime := 0 |}.
Lemma cheap_sent ovf n : xtx_sent ovf (ex_cheap n) = 0%Z.
Proof.
  unfold xtx_sent, ex_cheap. cbn [xt_outputs]. induction n as [|n IH]; [reflexivity|]. cbn [repeat fold_left]. exact IH.
Qed.
Lemma cheap_fee ovf n : xtx_fee ovf (ex_cheap n) = 1%Z.
Proof. unfold xtx_fee. rewrite cheap_sent. reflexivity. Qed.
Lemma fold_more n acc : fold_left (fun s o => s + output_size o) (repeat (ex_out 0) n) acc = acc + 10 * N.of_nat n.
Proof. revert acc. induction n as [|n IH]; intros acc; cbn [repeat fold_left]; [lia|]. rewrite IH. change (output_size (ex_out 0)) with 10. lia. Qed.
Lemma cheap_size n : N.of_nat n <= tx_size (xtx_plain (ex_cheap n)).
Proof. unfold tx_size, xtx_plain, ex_cheap. cbn [tx_outputs tx_inputs xt_outputs]. rewrite fold_more. lia. Qed.
Lemma cheap_scripts n : scripts_within 1000 (ex_cheap n).
Proof.
  split.
  - intros i [<-|[]]. vm_compute. discriminate.
  - intros o I. unfold ex_cheap in I. cbn [xt_outputs] in I. apply repeat_spec in I. subst o. vm_compute. discriminate.
Qed.
Lemma rate_refuted float_u float_i n : exists t, n <= tx_size (xtx_plain t) /\ (forall ovf, xtx_fee ovf t = 1%Z) /\
  forall cut ovf p sigops, policy_plain p 1000 sigops (tx_size (xtx_plain t)) 1 1 -> satisfies float_u float_i cut ovf p t = Ret true.
Proof.
  exists (ex_cheap (N.to_nat n)). split; [pose proof (cheap_size (N.to_nat n)); lia|]. split; [intros ovf; apply cheap_fee|]. intros cut ovf p sigops P.
  apply (any_fee float_u float_i cut ovf p _ 1000 sigops (tx_size (xtx_plain (ex_cheap (N.to_nat n)))) 1 1 P); [reflexivity|split; [reflexivity|discriminate]|lia|rewrite cheap_fee; lia|lia|apply cheap_scripts].
Qed.
Definition ex_checks : xtx :=
  {| xt_version := 2; xt_inputs := [ex_in 7000]; xt_outputs := [{| out_value := 10; out_script := [xac; xae; xac] |}]; xt_locktime := 0 |}.
