(* The model run on the values of /repo/test: testBip32.cpp, testBip32Derivations.cpp.  Of the chains the
   first steps are kept, to keep the build short. *)
From Coq Require Import String.
From Verif Require Import Base WireModel MerkleModel TextModel SecpModel HdModel Sha256Spec Sha512Spec Ripemd160Spec CurveSpec.
Local Open Scope N_scope.
Local Open Scope string_scope.

Definition unhex (s : string) : bytes := match hex_read (text s) with Some b => b | None => [] end.
Definition real_public (s : bytes) : bytes := secret_to_public cv_encode true s.
Definition read_secret (s : string) : xkey := xsecret_read sha256d (text s).
Definition read_public (s : string) : xkey := xpubkey_read sha256d (text s).
Definition real_derive (x : xkey) (child : N) : run xkey := derive_secret hmac512 sha_hash160 real_public 0 x child.

(* testBip32Derivations.cpp, case 1 *)
Succeed Example seed_1 : xsecret_write sha256d [] (secret_from_seed hmac512 (unhex
  "000102030405060708090a0b0c0d0e0f") NetMain) = text
  "xprv9s21ZrQH143K3QTDL4LXw2F7HEK3wJUD2nW2nRk4stbPy6cq3jPPqjiChkVvvNKmPGJxWUtg6LnF5kejMRNNU3TGtRBeJgk33yuGBxrMPHi" :=
  ltac:(vm_compute; reflexivity).
Succeed Example derive_1_1 : real_derive (read_secret
  "xprv9s21ZrQH143K3QTDL4LXw2F7HEK3wJUD2nW2nRk4stbPy6cq3jPPqjiChkVvvNKmPGJxWUtg6LnF5kejMRNNU3TGtRBeJgk33yuGBxrMPHi") 2147483648 = Done (read_secret
  "xprv9uHRZZhk6KAJC1avXpDAp4MDc3sQKNxDiPvvkX8Br5ngLNv1TxvUxt4cV1rGL5hj6KCesnDYUhd7oWgT11eZG7XnxHrnYeSvkzY7d2bhkJ7") :=
  ltac:(vm_compute; reflexivity).
Succeed Example derive_1_2 : real_derive (read_secret
  "xprv9uHRZZhk6KAJC1avXpDAp4MDc3sQKNxDiPvvkX8Br5ngLNv1TxvUxt4cV1rGL5hj6KCesnDYUhd7oWgT11eZG7XnxHrnYeSvkzY7d2bhkJ7") 1 = Done (read_secret
  "xprv9wTYmMFdV23N2TdNG573QoEsfRrWKQgWeibmLntzniatZvR9BmLnvSxqu53Kw1UmYPxLgboyZQaXwTCg8MSY3H2EU4pWcQDnRnrVA1xe8fs") :=
  ltac:(vm_compute; reflexivity).
(* testBip32Derivations.cpp, case 2 *)
Succeed Example seed_2 : xsecret_write sha256d [] (secret_from_seed hmac512 (unhex
  "fffcf9f6f3f0edeae7e4e1dedbd8d5d2cfccc9c6c3c0bdbab7b4b1aeaba8a5a29f9c999693908d8a8784817e7b7875726f6c696663605d5a5754514e4b484542") NetMain) = text
  "xprv9s21ZrQH143K31xYSDQpPDxsXRTUcvj2iNHm5NUtrGiGG5e2DtALGdso3pGz6ssrdK4PFmM8NSpSBHNqPqm55Qn3LqFtT2emdEXVYsCzC2U" :=
  ltac:(vm_compute; reflexivity).
Succeed Example derive_2_1 : real_derive (read_secret
  "xprv9s21ZrQH143K31xYSDQpPDxsXRTUcvj2iNHm5NUtrGiGG5e2DtALGdso3pGz6ssrdK4PFmM8NSpSBHNqPqm55Qn3LqFtT2emdEXVYsCzC2U") 0 = Done (read_secret
  "xprv9vHkqa6EV4sPZHYqZznhT2NPtPCjKuDKGY38FBWLvgaDx45zo9WQRUT3dKYnjwih2yJD9mkrocEZXo1ex8G81dwSM1fwqWpWkeS3v86pgKt") :=
  ltac:(vm_compute; reflexivity).
(* testBip32Derivations.cpp, case 3 *)
Succeed Example seed_3 : xsecret_write sha256d [] (secret_from_seed hmac512 (unhex
  "4b381541583be4423346c643850da4b320e46a87ae3d2a4e6da11eba819cd4acba45d239319ac14f863b8d5ab5a0d0c64d2e8a1e7d1457df2e5a3c51c73235be") NetMain) = text
  "xprv9s21ZrQH143K25QhxbucbDDuQ4naNntJRi4KUfWT7xo4EKsHt2QJDu7KXp1A3u7Bi1j8ph3EGsZ9Xvz9dGuVrtHHs7pXeTzjuxBrCmmhgC6" :=
  ltac:(vm_compute; reflexivity).
Succeed Example derive_3_1 : real_derive (read_secret
  "xprv9s21ZrQH143K25QhxbucbDDuQ4naNntJRi4KUfWT7xo4EKsHt2QJDu7KXp1A3u7Bi1j8ph3EGsZ9Xvz9dGuVrtHHs7pXeTzjuxBrCmmhgC6") 2147483648 = Done (read_secret
  "xprv9uPDJpEQgRQfDcW7BkF7eTya6RPxXeJCqCJGHuCJ4GiRVLzkTXBAJMu2qaMWPrS7AANYqdq6vcBcBUdJCVVFceUvJFjaPdGZ2y9WACViL4L") :=
  ltac:(vm_compute; reflexivity).
Succeed Example public_3 : xpubkey_write sha256d [] (to_public real_public (read_secret
  "xprv9uPDJpEQgRQfDcW7BkF7eTya6RPxXeJCqCJGHuCJ4GiRVLzkTXBAJMu2qaMWPrS7AANYqdq6vcBcBUdJCVVFceUvJFjaPdGZ2y9WACViL4L")) = text
  "xpub68NZiKmJWnxxS6aaHmn81bvJeTESw724CRDs6HbuccFQN9Ku14VQrADWgqbhhTHBaohPX4CjNLf9fq9MYo6oDaPPLPxSb7gwQN3ih19Zm4Y" :=
  ltac:(vm_compute; reflexivity).

(* testBip32.cpp 21-45 *)
Succeed Example chain_text : derive_secret_text hmac512 sha_hash160 real_public 10 (read_secret
  "xprv9s21ZrQH143K3QTDL4LXw2F7HEK3wJUD2nW2nRk4stbPy6cq3jPPqjiChkVvvNKmPGJxWUtg6LnF5kejMRNNU3TGtRBeJgk33yuGBxrMPHi") (text "0'") = Done (read_secret
  "xprv9uHRZZhk6KAJC1avXpDAp4MDc3sQKNxDiPvvkX8Br5ngLNv1TxvUxt4cV1rGL5hj6KCesnDYUhd7oWgT11eZG7XnxHrnYeSvkzY7d2bhkJ7") :=
  ltac:(vm_compute; reflexivity).
Succeed Example secret_text : xsecret_write sha256d [] (read_secret
  "xprv9s21ZrQH143K3QTDL4LXw2F7HEK3wJUD2nW2nRk4stbPy6cq3jPPqjiChkVvvNKmPGJxWUtg6LnF5kejMRNNU3TGtRBeJgk33yuGBxrMPHi") = text
  "xprv9s21ZrQH143K3QTDL4LXw2F7HEK3wJUD2nW2nRk4stbPy6cq3jPPqjiChkVvvNKmPGJxWUtg6LnF5kejMRNNU3TGtRBeJgk33yuGBxrMPHi" :=
  ltac:(vm_compute; reflexivity).
(* testBip32.cpp 56-77 *)
Succeed Example public_read : read_public
  "xpub661MyMwAqRbcFtXgS5sYJABqqG9YLmC4Q1Rdap9gSE8NqtwybGhePY2gZ29ESFjqJoCu1Rupje8YtGqsefD265TMg7usUDFdp6W1EGMcet8" =
  mkxkey (unhex "0339A36013301597DAEF41FBE593A02CC513D0B55527EC2DF1050E2E8FF49C85C2")
    (unhex "873DFF81C02F525623FD1FE5167EAC3A55A049DE3D314BB42EE227FFED37D508") NetMain 0 0 0 :=
  ltac:(vm_compute; reflexivity).
Succeed Example public_write : xpubkey_write sha256d [] (read_public
  "xpub661MyMwAqRbcFtXgS5sYJABqqG9YLmC4Q1Rdap9gSE8NqtwybGhePY2gZ29ESFjqJoCu1Rupje8YtGqsefD265TMg7usUDFdp6W1EGMcet8") = text
  "xpub661MyMwAqRbcFtXgS5sYJABqqG9YLmC4Q1Rdap9gSE8NqtwybGhePY2gZ29ESFjqJoCu1Rupje8YtGqsefD265TMg7usUDFdp6W1EGMcet8" :=
  ltac:(vm_compute; reflexivity).
(* testBip32.cpp 91-94 *)
Succeed Example read_empty : xsecret_valid (read_secret "") = false :=
  ltac:(vm_compute; reflexivity).
