(* Redeeming: the documents that are signed and verified, the unlocking scripts that the library makes, and the
   completion of a transaction.
   Source: redeem.cpp, include/gigamonkey/redeem.hpp, fees.hpp 79-101, script.cpp 46-50, script.hpp 61-75,
   signature.hpp 43-53 and 81-87, wif.hpp 131-145, extended.hpp 157-160. *)
From Verif Require Import Base WireModel TextModel SecpModel ScriptModel StackModel MachineModel PatternModel SighashModel ExtModel.
Local Open Scope N_scope.

(* redeem.hpp 16-22: a key and a directive *)
Record sigop := { so_key : secret; so_directive : byte }.
(* redeem.hpp 36-40 over fees.hpp 46-77 *)
Record rinput := { ri_input : dinput; ri_so_far : bytes; ri_sigs : list sigop }.
(* redeem.hpp 43-58: the list of lists of signatures has one element for each input *)
Record rdesign := { rd_version : Z; rd_inputs : list rinput; rd_outputs : list output; rd_locktime : N }.
Definition design_of (r : rdesign) : design :=
  {| ds_version := rd_version r; ds_inputs := map ri_input (rd_inputs r); ds_outputs := rd_outputs r; ds_locktime := rd_locktime r |}.

(* fees.hpp 98-101 *)
Definition script_so_far (i : rinput) : bytes := ri_so_far i ++ [OP_CODESEPARATOR] ++ out_script (di_prevout (ri_input i)).

(* script.cpp 46-50.  Every turn of the loop but the last one advances; that there is fuel enough is proved *)
Fixpoint to_the_end (fuel : nat) (c : counter) : outcome sexn program :=
  match pc_next c with
  | [] => script_code c
  | _ => match fuel with
         | O => Throw X_Fuel
         | S f => match pc_step c with Ret c' => to_the_end f c' | Throw _ => Throw X_Fuel | Undef => Undef end
         end
  end.
Definition remove_after_last_code_separator (b : bytes) : outcome sexn program :=
  match pc_start b with Ret c => to_the_end (length b) c | Throw _ => Throw X_Fuel | Undef => Undef end.

Section Redeem.
Variable H : bytes -> bytes.                     (* Hash256 *)
Variable hash160 : bytes -> bytes.               (* address_hash: RIPEMD160 of SHA256 *)
(* libsecp256k1, as in SecpModel; [sign] is secp256k1.cpp 280-293, the DER encoding of a signature or nothing *)
Variable parse : bytes -> option N.
Variable ser : bool -> N -> bytes.
Variable der : bytes -> option (N * N).
Variable ecdsa : N -> bytes -> N * N -> bool.
Variable sign : bytes -> bytes -> bytes.
Variable compressed minimal normalized : bytes -> bool. (* secp256k1.hpp: the tests on keys and signatures *)
Variable neg1 : bytes.                           (* see PatternModel *)

(* wif.hpp 131-133; secp256k1::secret::to_public gives the compressed key *)
Definition to_public (x : secret) : bytes :=
  if s_compressed x then pubkey_compress parse ser (secret_to_public ser true (s_value x))
  else pubkey_decompress parse ser (secret_to_public ser true (s_value x)).

(* signature.hpp 43-45 and wif.hpp 143-145; [None]: the hash is undefined *)
Definition signature_sign (x : secret) (doc : sdoc) (d : byte) : option bytes :=
  match signature_hash H doc d with Some h => Some (sign (s_value x) h ++ [d]) | None => None end.
(* signature.hpp 85-87.  That the hash is defined when it is asked for is proved in RedeemProofs *)
Definition signature_verify (sig pub : bytes) (doc : sdoc) : bool :=
  match signature_hash H doc (sig_directive sig) with
  | Some h => pubkey_verify parse der ecdsa pub h (sig_raw sig)
  | None => false
  end.
(* signature.hpp 81-83 *)
Definition signature_der (sig : bytes) : bool := (0 <? len sig) && minimal (sig_raw sig).

(* script.hpp 61-75 and script.cpp 12-43 for the transaction t, its input number i and the amount v.  The input of
   an index out of range, which check_sequence reads, is [None] here; the theorems are about indices in range *)
Definition tx_checks (t : itx) (i : N) (v : Z) : sig_checks :=
  {| k_compressed := compressed; k_valid := fun k => is_some (parse k); k_der := signature_der; k_normalized := normalized;
     k_verify := fun code sig pub => signature_verify sig pub {| sd_tx := t; sd_index := i; sd_value := v; sd_code := code |} |}.
Definition redemption (t : itx) (i : N) (v : Z) (f : flag) : option rdoc :=
  match at_index (it_inputs t) i with
  | Some x => Some {| d_verify := verify_signature (tx_checks t i v) f; d_locktime := check_locktime (it_locktime t) (ii_seq x);
                      d_sequence := check_sequence (it_version t) (ii_seq x) |}
  | None => None
  end.

(* compile gives undefined behaviour when its buffer is overrun *)
Definition compiled (x : option bytes) : outcome sexn bytes := match x with Some b => Ret b | None => Undef end.

(* redeem.cpp 6-36 *)
Definition redeem_default (out : output) (doc : sdoc) (sigs : list sigop) (so_far : bytes) : outcome sexn bytes :=
  match sigs with
  | [s] =>
      if negb (secret_valid (so_key s)) then Ret []
      else
        let p := to_public (so_key s) in
        match template_read neg1 p2a_pattern zero20 (out_script out) with
        | Throw e => Throw e
        | Undef => Undef
        | Ret a =>
            if negb (bytes_eqb a zero20) then
              if negb (bytes_eqb a (hash160 p)) then Ret []
              else match signature_sign (so_key s) doc (so_directive s) with
                   | Some g => compiled (p2a_redeem g p)
                   | None => Undef
                   end
            else
              match template_read neg1 p2p_pattern [] (out_script out) with
              | Throw e => Throw e
              | Undef => Undef
              | Ret k =>
                  if negb (pubkey_valid parse k) then Ret []
                  else if negb (pubkey_eqb parse ser k p) then Ret []
                  else match signature_sign (so_key s) doc (so_directive s) with
                       | Some g => compiled (p2p_redeem g)
                       | None => Undef
                       end
              end
        end
  | _ => Ret []
  end.
End Redeem.

(* redeem.cpp 41-46: the document of every input; index is a uint32 *)
Fixpoint documents (t : itx) (index : N) (l : list rinput) : outcome sexn (list sdoc) :=
  match l with
  | [] => Ret []
  | i :: r =>
      match remove_after_last_code_separator (script_so_far i) with
      | Ret code =>
          match documents t ((index + 1) mod 2 ^ 32) r with
          | Ret ds => Ret ({| sd_tx := t; sd_index := index; sd_value := out_value (di_prevout (ri_input i)); sd_code := code |} :: ds)
          | Throw e => Throw e
          | Undef => Undef
          end
      | Throw e => Throw e
      | Undef => Undef
      end
  end.

(* redeem.hpp 27-31: the type of functions that make unlocking scripts *)
Definition redeemer := output -> sdoc -> list sigop -> bytes -> outcome sexn bytes.

(* redeem.cpp 52-58 *)
Fixpoint unlockings (r : redeemer) (l : list rinput) (ds : list sdoc) : outcome sexn (list bytes) :=
  match ds, l with
  | d :: ds', i :: l' =>
      match r (di_prevout (ri_input i)) d (ri_sigs i) (ri_so_far i) with
      | Ret s => match unlockings r l' ds' with Ret ss => Ret (s :: ss) | Throw e => Throw e | Undef => Undef end
      | Throw e => Throw e
      | Undef => Undef
      end
  | _, _ => Ret []
  end.

(* redeem.cpp 38-61 *)
Definition redeem (r : redeemer) (d : rdesign) : outcome ixn xtx :=
  match documents (design_incomplete (design_of d)) 0 (rd_inputs d) with
  | Ret ds => match unlockings r (rd_inputs d) ds with
              | Ret ss => design_complete (design_of d) ss
              | Throw e => Throw (X_bad_script e)
              | Undef => Undef
              end
  | Throw e => Throw (X_bad_script e)
  | Undef => Undef
  end.
