(** The bytes of network messages, as a grammar, apart from the code that reads and writes them. *)
From Coq Require Import DecimalString.
From Verif Require Import Base Sha256 Tx_Model Block_Model Net_Model Grammar_Spec.
Local Open Scope string_scope.
Local Open Scope list_scope.
Local Open Scope Z_scope.

(** ** What messages are made of *)

(** A number in decimal; an IPv4 address as text. *)
Definition decimal (n : N) : string := NilZero.string_of_uint (N.to_uint n).
Inductive quad : string -> bytes -> Prop :=
| quad_intro : forall w x y z,
    quad (decimal (bN w) ++ "." ++ decimal (bN x) ++ "." ++ decimal (bN y) ++ "." ++ decimal (bN z))%string [w; x; y; z].
(** Time (if it is there), services, 12 bytes, IP address, port; only the port is big-endian. *)
Inductive address_text (timed : bool) (a : address) : bytes -> Prop :=
| address_text_intro : forall t s i p, (if timed then le 4 (a_nTime a) t else t = []) -> le 8 (a_nServices a) s ->
    quad (a_ip a) i -> le 2 (a_port a) (rev p) -> address_text timed a (t ++ s ++ a_pchReserved a ++ i ++ p).
(** Attributes that are not in the bytes have their defaults, and the reserved bytes are 12. *)
Definition standard (timed : bool) (a : address) : Prop :=
  a_protover a = 60002 /\ (timed = false -> a_nTime a = 0) /\ List.length (a_pchReserved a) = 12%nat.
Definition address_bytes (timed : bool) (a : address) (b : bytes) : Prop := standard timed a /\ address_text timed a b.

Inductive inv_bytes (v : inv) : bytes -> Prop :=
| inv_bytes_intro : forall t, le_signed 4 (v_type v) t -> List.length (v_hash v) = 32%nat -> inv_bytes v (t ++ v_hash v).
Definition hash_bytes (h b : bytes) : Prop := b = h /\ List.length h = 32%nat.
Inductive locator_bytes (l : locator) : bytes -> Prop :=
| locator_bytes_intro : forall v h, le_signed 4 (l_nVersion l) v -> counted hash_bytes (l_vHave l) h -> locator_bytes l (v ++ h).
Inductive locate_bytes (l : locator) (stop : bytes) : bytes -> Prop :=
| locate_bytes_intro : forall b, locator_bytes l b -> List.length stop = 32%nat -> locate_bytes l stop (b ++ stop).
Inductive alert_bytes (a : alert) : bytes -> Prop :=
| alert_bytes_intro : forall m s, script_text (al_vchMsg a) m -> script_text (al_vchSig a) s -> alert_bytes a (m ++ s).

Inductive header_bytes (h : header) : bytes -> Prop :=
| header_bytes_intro : forall v t b n, le_signed 4 (h_nVersion h) v -> List.length (h_prev h) = 32%nat -> List.length (h_merkle h) = 32%nat ->
    le 4 (h_nTime h) t -> le 4 (h_nBits h) b -> le 4 (h_nNonce h) n -> header_bytes h (v ++ h_prev h ++ h_merkle h ++ t ++ b ++ n).
Inductive block_bytes (b : block) : bytes -> Prop :=
| block_bytes_intro : forall h t, header_bytes (b_header b) h -> counted tx_text (b_vtx b) t -> block_bytes b (h ++ t).

(** The version sent: 10300 means 300. *)
Definition announces (sent version : Z) : Prop := (sent = 10300 /\ version = 300) \/ (sent <> 10300 /\ version = sent).
Inductive version_bytes (v : version) : bytes -> Prop :=
(** Before version 106 the sender's address and what follows, before version 209 the height, are not sent. *)
| version_old : forall n n0 s t a, announces n0 (n_nVersion v) -> n_nVersion v < 106 -> le_signed 4 n0 n -> le 8 (n_nServices v) s ->
    le_signed 8 (n_nTime v) t -> address_bytes false (n_addrTo v) a ->
    n_addrFrom v = None -> n_nNonce v = None -> n_strSubVer v = None -> n_nStartingHeight v = None -> version_bytes v (n ++ s ++ t ++ a)
| version_mid : forall n n0 s t a f fb c cb u ub, announces n0 (n_nVersion v) -> 106 <= n_nVersion v < 209 -> le_signed 4 n0 n -> le 8 (n_nServices v) s ->
    le_signed 8 (n_nTime v) t -> address_bytes false (n_addrTo v) a ->
    n_addrFrom v = Some f -> address_bytes false f fb -> n_nNonce v = Some c -> le 8 c cb -> n_strSubVer v = Some u -> script_text u ub ->
    n_nStartingHeight v = None -> version_bytes v (n ++ s ++ t ++ a ++ fb ++ cb ++ ub)
| version_new : forall n n0 s t a f fb c cb u ub h hb, announces n0 (n_nVersion v) -> 209 <= n_nVersion v -> le_signed 4 n0 n -> le 8 (n_nServices v) s ->
    le_signed 8 (n_nTime v) t -> address_bytes false (n_addrTo v) a ->
    n_addrFrom v = Some f -> address_bytes false f fb -> n_nNonce v = Some c -> le 8 c cb -> n_strSubVer v = Some u -> script_text u ub ->
    n_nStartingHeight v = Some h -> le_signed 4 h hb -> version_bytes v (n ++ s ++ t ++ a ++ fb ++ cb ++ ub ++ hb).

(** ** Bodies and names *)

Definition body_bytes (m : msg) (b : bytes) : Prop :=
  match m with
  | MVersion v => version_bytes v b
  | MVerack | MGetAddr | MMempool => b = []
  | MAddr l => counted (address_bytes true) l b
  | MAlert a => alert_bytes a b
  | MInv l | MGetData l => counted inv_bytes l b
  | MGetBlocks l h | MGetHeaders l h => locate_bytes l h b
  | MHeaders l => counted block_bytes l b
  | MTx t => tx_text t b
  | MBlock k => block_bytes k b
  | MPing n | MPong n => le 8 n b
  end.

Definition known : list string :=
  ["version"; "verack"; "addr"; "alert"; "inv"; "getdata"; "getblocks"; "getheaders"; "headers"; "tx"; "block"; "getaddr"; "ping"; "pong"; "mempool"].
Definition kind (m : msg) : string :=
  match m with
  | MVersion _ => "version" | MVerack => "verack" | MAddr _ => "addr" | MAlert _ => "alert" | MInv _ => "inv" | MGetData _ => "getdata"
  | MGetBlocks _ _ => "getblocks" | MGetHeaders _ _ => "getheaders" | MHeaders _ => "headers" | MTx _ => "tx" | MBlock _ => "block"
  | MGetAddr => "getaddr" | MPing _ => "ping" | MPong _ => "pong" | MMempool => "mempool"
  end.

(** Messages whose attributes all come back: what the format cannot express has the default. *)
Definition faithful (m : msg) : Prop :=
  match m with
  | MVersion v => 209 <= n_nVersion v /\ n_nVersion v <> 10300 /\ standard false (n_addrTo v) /\ (exists i, quad (a_ip (n_addrTo v)) i) /\
      exists f, n_addrFrom v = Some f /\ standard false f /\ exists i, quad (a_ip f) i
  | MAddr l => Forall (fun a => standard true a /\ exists i, quad (a_ip a) i) l
  | MInv l | MGetData l => Forall (fun v => List.length (v_hash v) = 32%nat) l
  | MGetBlocks _ h | MGetHeaders _ h => List.length h = 32%nat
  | _ => True
  end.

(** Version messages that carry all the fields of today's; any other message. *)
Definition current (m : msg) : Prop := match m with MVersion v => 209 <= n_nVersion v | _ => True end.

(** ** Frames *)

Definition magic (c : chain) : bytes :=
  match c with Mainnet => [xf9; xbe; xb4; xd9] | Testnet => [x0b; x11; x09; x07] | Regtest => [xfa; xbf; xb5; xda] end.
Definition checksum (body : bytes) : bytes := firstn 4 (Hash body).

(** A frame as it is sent: network, name filled up with zeros to 12 bytes, length, checksum, body. *)
Inductive frame (c : chain) (name : string) (body : bytes) : bytes -> Prop :=
| frame_intro : forall zeros len, (List.length (str name) + List.length zeros = 12)%nat -> Forall (eq x00) zeros -> le 4 (Z.of_N (blen body)) len ->
    frame c name body (magic c ++ str name ++ zeros ++ len ++ checksum body ++ body).

(** The name in a received header ends with the first zero byte; what follows that is not looked at. *)
Definition named (cmd field : bytes) : Prop :=
  ~ In x00 cmd /\ List.length field = 12%nat /\ (field = cmd \/ exists junk, field = cmd ++ x00 :: junk).
(** [covers n tail body rest]: of the bytes [tail] after a header with length [n], [body] is taken as the body and [rest] is left. *)
Inductive covers (n : Z) : bytes -> bytes -> bytes -> Prop :=
| covers_exact : forall body rest, Z.of_N (blen body) = n -> n <= 0x02000000 -> covers n (body ++ rest) body rest
(** A negative length takes everything; up to -24 nothing of it is used, below that the last -n-24 bytes are not. *)
| covers_none : forall tail, -24 <= n < 0 -> covers n tail [] []
| covers_cut : forall body cut, n < -24 -> Z.of_N (blen cut) = - n - 24 -> covers n (body ++ cut) body []
| covers_short : forall tail, n < -24 -> Z.of_N (blen tail) < - n - 24 -> covers n tail [] [].
(** A frame that passes the checks: command, body and what is left of the stream. *)
Inductive received (c : chain) (cmd body : bytes) : bytes -> bytes -> Prop :=
| received_intro : forall field len n tail rest, named cmd field -> le_signed 4 n len -> covers n tail body rest ->
    received c cmd body (magic c ++ field ++ len ++ checksum body ++ tail) rest.

Definition ascii_only (b : bytes) : Prop := Forall (fun x => (bN x < 128)%N) b.
