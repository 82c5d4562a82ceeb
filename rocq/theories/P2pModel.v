(* Messages between peers: commands, network addresses and version messages.
   Source: include/gigamonkey/p2p/command.hpp, net_address.hpp, version.hpp, p2p/version.cpp. *)
From Verif Require Import Base WireModel.
Local Open Scope N_scope.

(* command.hpp 15-24: what is at the pointer, up to its first zero, goes into an array of 12 zeros. Writing past the array or
   reading past what is there is undefined. *)
Fixpoint command_fill (i : nat) (x : bytes) (a : bytes) : outcome unit bytes :=
  match x with
  | [] => Undef
  | c :: r => if Byte.eqb c x00 then Ret a else if (i <? 12)%nat then command_fill (S i) r (firstn i a ++ c :: skipn (S i) a) else Undef
  end.
Definition command_of (x : bytes) : outcome unit bytes := command_fill 0 x (repeat x00 12).

(* net_address.hpp 21-40: 16 bytes, and the number of the port *)
Record endpoint := { ep_ip : bytes; ep_port : N }.
(* net_address.hpp 28-36: the address is given by its bytes, None if it is not valid. More than 16 bytes would be written before
   the beginning. *)
Definition endpoint_of (addr : option bytes) (port : N) : outcome unit endpoint :=
  match addr with
  | None => Ret {| ep_ip := repeat x00 16; ep_port := 0 |}
  | Some b => if 16 <? len b then Undef else Ret {| ep_ip := repeat x00 (16 - length b) ++ b; ep_port := port |}
  end.
(* net_address.hpp 69-76: the 16 bytes are compared as a little endian number *)
Definition endpoint_compare (a b : endpoint) : comparison :=
  match le_val (ep_ip a) ?= le_val (ep_ip b) with Eq => ep_port a ?= ep_port b | c => c end.
Definition endpoint_eqb (a b : endpoint) : bool := bytes_eqb (ep_ip a) (ep_ip b) && (ep_port a =? ep_port b).
(* net_address.hpp 78-80 *)
Definition endpoint_write (e : endpoint) : bytes := ep_ip e ++ le 2 (ep_port e).

(* net_address.hpp 47-56, 82-84 *)
Record net_address := { na_service : N; na_endpoint : endpoint }.
Definition net_address_write (a : net_address) : bytes := le 8 (na_service a) ++ endpoint_write (na_endpoint a).
(* net_address.hpp 60-66, 86-88; timestamp.hpp 68-70 *)
Definition seen_write (a : net_address) (last_seen : N) : bytes := net_address_write a ++ le 4 last_seen.
(* net_address.hpp 37-39, 53-55, 63-65 *)
Definition endpoint_size : N := 18.
Definition net_address_size : N := 26.
Definition seen_size : N := 30.

(* version.hpp 33-106: the three structures together; the later members are not in the earlier ones *)
Record vmessage := { vm_version : Z; vm_services : N; vm_timestamp : N; vm_receive : net_address; vm_from : net_address; vm_nonce : N;
  vm_agent : bytes; vm_height : Z; vm_relay : byte }.
(* version.hpp 108-110 *)
Definition version0_write (m : vmessage) : bytes :=
  sle 4 (vm_version m) ++ le 8 (vm_services m) ++ le 4 (vm_timestamp m) ++ net_address_write (vm_receive m).
(* version.cpp 8-12 *)
Definition version106_write (m : vmessage) : bytes :=
  version0_write m ++
  (if (vm_version m <=? 105)%Z then []
   else net_address_write (vm_from m) ++ le 4 (vm_nonce m) ++ var_string_write (vm_agent m) ++ sle 4 (vm_height m)).
(* version.cpp 14-18 *)
Definition version_write (m : vmessage) : bytes := version106_write m ++ (if (vm_version m <=? 70000)%Z then [] else [vm_relay m]).
(* version.hpp 43-45, 66-68, 101-103 *)
Definition version0_size (m : vmessage) : N := 46.
Definition version106_size (m : vmessage) : N := 84 + var_string_size (len (vm_agent m)).
Definition version_size (m : vmessage) : N := 85 + var_string_size (len (vm_agent m)).
