From Verif Require Import Base WireModel WireSpec P2pModel P2pSpec P2pProofs P2pExamples.
Local Open Scope N_scope.

(* ==== C117: version messages ==== *)
(* what is written says everything that a message of its version has, and nothing else *)
Theorem C117_determined : forall m n, vmessage_wf m -> vmessage_wf n -> (version_write m = version_write n <-> same_message m n).
Proof. exact version_determined. Qed.
Print Assumptions C117_determined.
Example C117_determined_ex : vmessage_wf (ex_version 70015 x01) /\ version_write (ex_version 70015 x01) <> version_write (ex_version 70015 x00) /\
  version_write (ex_version 70000 x01) = version_write (ex_version 70000 x00).
Proof. split; [apply ex_version_wf; split; vm_compute; (discriminate||reflexivity)|]. split; [vm_compute; discriminate|reflexivity]. Qed.
Theorem C117_lengths : forall m, vmessage_wf m ->
  len (version0_write m) = 42 /\
  len (version106_write m) = (if (vm_version m <=? 105)%Z then 42 else 76 + var_string_size (len (vm_agent m))) /\
  len (version_write m) = (if (vm_version m <=? 105)%Z then 42 else if (vm_version m <=? 70000)%Z then 76 + var_string_size (len (vm_agent m))
                           else 77 + var_string_size (len (vm_agent m))).
Proof. exact version_lengths. Qed.
Print Assumptions C117_lengths.
(* the sizes that the library gives are wrong for every message *)
Theorem C117_sizes_refuted : forall m, vmessage_wf m ->
  len (version0_write m) <> version0_size m /\ len (version106_write m) <> version106_size m /\ len (version_write m) <> version_size m.
Proof. exact version_sizes_refuted. Qed.
Print Assumptions C117_sizes_refuted.
(* and no message is written as the protocol says *)
Theorem C117_protocol_refuted : forall m, vmessage_wf m -> ~ version_form m (version_write m).
Proof. exact protocol_refuted. Qed.
Print Assumptions C117_protocol_refuted.
Example C117_sizes_ex : vmessage_wf (ex_version 70015 x01) /\ len (version_write (ex_version 70015 x01)) = 81 /\ version_size (ex_version 70015 x01) = 89 /\
  (exists b, version_form (ex_version 70015 x01) b /\ len b = 89).
Proof.
  split; [apply ex_version_wf; split; vm_compute; (discriminate||reflexivity)|]. split; [reflexivity|]. split; [reflexivity|].
  eexists. split; [|shelve]. eexists. split; [reflexivity|]. right. split; [discriminate|]. eexists _, _. split; [reflexivity|].
  split; [exact (sf (vm_agent (ex_version 70015 x01)) [x03] (cf_1 3 x03 eq_refl eq_refl))|reflexivity].
  Unshelve. vm_compute. reflexivity.
Qed.

(* ==== C118: commands and network addresses ==== *)
(* a command is its name followed by zeros, if it has at most 12 characters; otherwise it is undefined *)
Theorem C118_command : forall x c, command_of x = Ret c <-> exists name rest, x = name ++ x00 :: rest /\ no_zero name /\ padded name c.
Proof. exact command_iff. Qed.
Print Assumptions C118_command.
Theorem C118_long : forall name rest, no_zero name ->
  command_of (name ++ x00 :: rest) = if 12 <? len name then Undef else Ret (name ++ repeat x00 (12 - length name)).
Proof. exact command_exact. Qed.
Print Assumptions C118_long.
Theorem C118_names : forall a b ra rb c, no_zero a -> no_zero b -> command_of (a ++ x00 :: ra) = Ret c -> command_of (b ++ x00 :: rb) = Ret c -> a = b.
Proof. exact command_names. Qed.
Print Assumptions C118_names.
Example C118_command_ex : command_of (ex_name ++ [x00]) = Ret (ex_name ++ repeat x00 5) /\ command_of (ex_long ++ [x00]) = Undef.
Proof. split; reflexivity. Qed.
(* the sizes of addresses are right *)
Theorem C118_sizes : forall a seen, net_address_wf a ->
  len (endpoint_write (na_endpoint a)) = endpoint_size /\ len (net_address_write a) = net_address_size /\ len (seen_write a seen) = seen_size.
Proof. exact address_sizes. Qed.
Print Assumptions C118_sizes.
(* the order of endpoints agrees with their equality *)
Theorem C118_order : forall a b, endpoint_wf a -> endpoint_wf b ->
  (endpoint_compare a b = Eq <-> a = b) /\ (endpoint_eqb a b = true <-> a = b) /\ endpoint_compare b a = CompOpp (endpoint_compare a b).
Proof. exact order_exact. Qed.
Print Assumptions C118_order.
Theorem C118_endpoint : forall addr port, (endpoint_of addr port = Undef <-> exists b, addr = Some b /\ 16 < len b) /\
  (forall b, len b <= 16 -> exists e, endpoint_of (Some b) port = Ret e /\ len (ep_ip e) = 16 /\ ep_port e = port /\ exists z, ep_ip e = repeat x00 z ++ b).
Proof. exact endpoint_exact. Qed.
Print Assumptions C118_endpoint.
(* an address is written as the protocol says only if both bytes of the port are the same *)
Theorem C118_port_refuted : forall a, net_address_wf a ->
  (net_address_form a (net_address_write a) <-> ep_port (na_endpoint a) / 256 = ep_port (na_endpoint a) mod 256).
Proof. exact address_form_exact. Qed.
Print Assumptions C118_port_refuted.
(* IPv4 addresses are not in the range that the protocol has for them *)
Theorem C118_ipv4_refuted : forall ip port e, len ip = 4 -> endpoint_of (Some ip) port = Ret e -> ep_ip e <> mapped ip.
Proof. exact ipv4_refuted. Qed.
Print Assumptions C118_ipv4_refuted.
Example C118_address_ex : net_address_wf (ex_peer 8333) /\ ~ net_address_form (ex_peer 8333) (net_address_write (ex_peer 8333)) /\
  endpoint_of (Some [x7f; x00; x00; x01]) 8333 = Ret (na_endpoint (ex_peer 8333)) /\
  endpoint_compare (na_endpoint (ex_peer 8333)) (na_endpoint (ex_peer 0)) = Gt.
Proof. split; [apply ex_peer_wf; reflexivity|]. split; [vm_compute; discriminate|]. split; reflexivity. Qed.
