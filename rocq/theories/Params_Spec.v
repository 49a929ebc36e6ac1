(** What choosing a network means: the name last given that is one of the three, and the values published for each network. *)
From Verif Require Import Base Net_Model Base58_Model.
#[local] Open Scope Z_scope.

(** The network a name stands for. *)
Definition named (name : text) : option chain :=
  if list_eq_dec Ascii.ascii_dec name (list_ascii_of_string "mainnet") then Some Mainnet
  else if list_eq_dec Ascii.ascii_dec name (list_ascii_of_string "testnet") then Some Testnet
  else if list_eq_dec Ascii.ascii_dec name (list_ascii_of_string "regtest") then Some Regtest
  else None.
(** The network last chosen by name, if any was. *)
Definition last_chosen (names : list text) : option chain :=
  match rev (flat_map (fun n => match named n with Some c => [c] | None => [] end) names) with c :: _ => Some c | [] => None end.
(** The network in force. *)
Definition in_force (names : list text) : chain := match last_chosen names with Some c => c | None => Mainnet end.

(** The published values. *)
Definition name_of (c : chain) : string := match c with Mainnet => "mainnet" | Testnet => "testnet" | Regtest => "regtest" end.
Definition start_of (c : chain) : bytes := match c with Mainnet => hex "f9beb4d9" | Testnet => hex "0b110907" | Regtest => hex "fabfb5da" end.
Definition port_of (c : chain) : Z := match c with Mainnet => 8333 | Testnet => 18333 | Regtest => 18444 end.
Definition rpcport_of (c : chain) : Z := match c with Mainnet => 8332 | Testnet => 18332 | Regtest => 18332 end.
Definition pubkey_prefix (c : chain) : N := match c with Mainnet => 0 | _ => 111 end.
Definition script_prefix (c : chain) : N := match c with Mainnet => 5 | _ => 196 end.
Definition secret_prefix (c : chain) : N := match c with Mainnet => 128 | _ => 239 end.
Definition limit_of (c : chain) : Z := match c with Regtest => 2 ^ 255 - 1 | _ => 2 ^ 224 - 1 end.
Definition halving_of (c : chain) : Z := match c with Regtest => 150 | _ => 210000 end.
(** The hashes of the genesis blocks, as block explorers show them (the bytes in reverse order), and the times of these blocks. *)
Definition genesis_hash (c : chain) : bytes := rev (match c with
  | Mainnet => hex "000000000019d6689c085ae165831e934ff763ae46a2a6c172b3f1b60a8ce26f"
  | Testnet => hex "000000000933ea01ad0ee984209779baaec3ced90fa3f408719526f8d77f4943"
  | Regtest => hex "0f9188f13cb7b2c71f2a335e3a4fc328bf5beb436012afca590b1a11466e2206" end).
Definition genesis_time (c : chain) : Z := match c with Mainnet => 1231006505 | Testnet => 1296688602 | Regtest => 1296688602 end.
(** The two networks for testing share their prefixes. *)
Definition test_like (c : chain) : bool := match c with Mainnet => false | _ => true end.
