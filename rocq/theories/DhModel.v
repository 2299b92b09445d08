(** Model of utils/DiffieHellman.cpp.  The random private key and the random
    padding are arguments. *)
From Verif Require Import Base BigModel.

(** pePrimesArray, DiffieHellman.cpp 31-44. *)
Definition pePrimesArray : list Z :=
  [255;255;255;255;255;255;255;255; 201;15;218;162;33;104;194;52; 196;198;98;139;128;220;28;209;
   41;2;78;8;138;103;204;116; 2;11;190;166;59;19;155;34; 81;74;8;121;142;52;4;221;
   239;149;25;179;205;58;67;27; 48;43;10;109;242;95;20;55; 79;225;53;109;109;81;194;69;
   228;133;181;118;98;94;126;198; 244;76;66;233;166;58;54;33; 0;0;0;0;0;9;5;99].
(** Also DiffieHellman.cpp 31-44. *)
Definition KeySize : nat := 96.

(** pePrimes, peGenerator, DiffieHellman.cpp:46-47. *)
Definition pePrimes : list Z := Set_ pePrimesArray.
(** Also DiffieHellman.cpp:46. *)
Definition peGenerator : list Z := ofSmall 2 12.

(** createExchangeMessage, DiffieHellman.cpp:9-16 and 53-59: the key, then the random padding. *)
Definition createExchangeMessage (privateKey padding : list Z) : res (list Z) :=
  bind (Powm peGenerator privateKey pePrimes) (fun r =>
    match r with
    | Some publicKey => Ok (Export publicKey (KeySize + length padding) ++ padding)
    | None => UB
    end).

(** createSecretFromRemoteKey, DiffieHellman.cpp:18-29 and 61-64. *)
Definition createSecretFromRemoteKey (privateKey key : list Z) : res (list Z) :=
  bind (Powm (Set_ (firstn KeySize key)) privateKey pePrimes) (fun r =>
    match r with Some s => Ok s | None => UB end).
