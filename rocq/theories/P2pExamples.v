From Verif Require Import Base WireModel WireSpec P2pModel P2pSpec.
Local Open Scope N_scope.
Definition ex_peer (port : N) : net_address := {| na_service := 1; na_endpoint := {| ep_ip := repeat x00 12 ++ [x7f; x00; x00; x01]; ep_port := port |} |}.
Definition ex_version (v : Z) (relay : byte) : vmessage :=
  {| vm_version := v; vm_services := 1; vm_timestamp := 0x5e6dc081; vm_receive := ex_peer 8333; vm_from := ex_peer 0; vm_nonce := 77; vm_agent := [x2f; x41; x2f];
     vm_height := 800000; vm_relay := relay |}.
Lemma ex_peer_wf p : p < 65536 -> net_address_wf (ex_peer p).
Proof. intros L. split; [reflexivity|]. split; [reflexivity|exact L]. Qed.
Lemma ex_version_wf v r : i32 v -> vmessage_wf (ex_version v r).
Proof.
  intros V. split; [exact V|]. split; [reflexivity|]. split; [reflexivity|]. split; [apply ex_peer_wf; reflexivity|]. split; [apply ex_peer_wf; reflexivity|].
  split; [reflexivity|]. split; [reflexivity|]. split; vm_compute; (discriminate||reflexivity).
Qed.
(* "version" and "verack" *)
Definition ex_name : bytes := [x76; x65; x72; x73; x69; x6f; x6e].
Definition ex_long : bytes := repeat x61 13.
