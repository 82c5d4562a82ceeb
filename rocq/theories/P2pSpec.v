(* What peers expect of these messages. *)
From Verif Require Import Base WireModel WireSpec P2pModel.
Local Open Scope N_scope.

(* the name of a command and the zeros after it *)
Definition padded (name : bytes) (c : bytes) : Prop := len c = 12 /\ exists z, c = name ++ repeat x00 z.
Definition no_zero (name : bytes) : Prop := ~ In x00 name.

Definition endpoint_wf (e : endpoint) : Prop := len (ep_ip e) = 16 /\ ep_port e < 2 ^ 16.
Definition net_address_wf (a : net_address) : Prop := u64 (na_service a) /\ endpoint_wf (na_endpoint a).
Definition vmessage_wf (m : vmessage) : Prop :=
  i32 (vm_version m) /\ u64 (vm_services m) /\ u32 (vm_timestamp m) /\ net_address_wf (vm_receive m) /\ net_address_wf (vm_from m) /\ u32 (vm_nonce m) /\
  u64 (len (vm_agent m)) /\ i32 (vm_height m).

(* the fields that a message of this version has *)
Record same_message (m n : vmessage) : Prop := {
  sm_version : vm_version m = vm_version n;
  sm_services : vm_services m = vm_services n;
  sm_timestamp : vm_timestamp m = vm_timestamp n;
  sm_receive : vm_receive m = vm_receive n;
  sm_more : (105 < vm_version m)%Z -> vm_from m = vm_from n /\ vm_nonce m = vm_nonce n /\ vm_agent m = vm_agent n /\ vm_height m = vm_height n;
  sm_relay : (70000 < vm_version m)%Z -> vm_relay m = vm_relay n }.

(* ---- the protocol ---- *)
(* an IPv4 address is in the range ::ffff:0:0; the port is the big endian *)
Definition mapped (ip : bytes) : bytes := repeat x00 10 ++ [xff; xff] ++ ip.
Definition net_address_form (a : net_address) (b : bytes) : Prop := b = le 8 (na_service a) ++ ep_ip (na_endpoint a) ++ be 2 (ep_port (na_endpoint a)).
(* the timestamp has 64 bits and so does the nonce *)
Definition version_form (m : vmessage) (b : bytes) : Prop := exists a, net_address_form (vm_receive m) a /\
  ((vm_version m < 106)%Z /\ b = sle 4 (vm_version m) ++ le 8 (vm_services m) ++ le 8 (vm_timestamp m) ++ a \/
   (106 <= vm_version m)%Z /\ exists f s, net_address_form (vm_from m) f /\ string_form (vm_agent m) s /\
     b = sle 4 (vm_version m) ++ le 8 (vm_services m) ++ le 8 (vm_timestamp m) ++ a ++ f ++ le 8 (vm_nonce m) ++ s ++ sle 4 (vm_height m) ++
         (if (70001 <=? vm_version m)%Z then [vm_relay m] else [])).
