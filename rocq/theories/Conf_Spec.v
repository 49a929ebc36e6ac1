(** Vocabulary for the configuration of the RPC proxy: lines of a file, settings, addresses of services, Basic authentication. *)
From Verif Require Import Base Base58_Model Money_Spec Conf_Model.
#[local] Open Scope list_scope.

(** The lines of a text; they end with LF, CR LF or CR. *)
Definition LF : ascii := ascii_of_N 10.
Definition CR : ascii := ascii_of_N 13.
Inductive lines_of : text -> list text -> Prop :=
| lines_last : forall l, ~ In LF l -> ~ In CR l -> lines_of l [l]
| lines_lf : forall l r ls, ~ In LF l -> ~ In CR l -> lines_of r ls -> lines_of (l ++ LF :: r) (l :: ls)
| lines_crlf : forall l r ls, ~ In LF l -> ~ In CR l -> lines_of r ls -> lines_of (l ++ CR :: LF :: r) (l :: ls)
| lines_cr : forall l r ls, ~ In LF l -> ~ In CR l -> (forall r', r <> LF :: r') -> lines_of r ls -> lines_of (l ++ CR :: r) (l :: ls).

(** White space; [t] is [s] without white space around it. *)
Definition white (c : ascii) : Prop := In (N_of_ascii c) [9; 10; 11; 12; 13; 28; 29; 30; 31; 32]%N.
Definition stripped (s t : text) : Prop :=
  exists a b, s = a ++ t ++ b /\ Forall white a /\ Forall white b /\ (forall c r, t = c :: r -> ~ white c) /\ (forall c r, t = r ++ [c] -> ~ white c).

(** The part of a line before a comment; a line that sets [k] to [v]. *)
Definition uncommented (line s : text) : Prop := ~ In "#"%char s /\ (line = s \/ exists r, line = s ++ "#"%char :: r).
Definition sets (k : string) (line v : text) : Prop :=
  exists s a b, uncommented line s /\ s = a ++ "="%char :: b /\ ~ In "="%char a /\ stripped a (list_ascii_of_string k) /\ stripped b v.
(** [k] is set to [v], by the last line that sets it; or it is not set. *)
Definition setting (k : string) (lines : list text) (v : text) : Prop :=
  exists l1 line l2, lines = l1 ++ line :: l2 /\ sets k line v /\ Forall (fun l => forall v', ~ sets k l v') l2.
Definition unset (k : string) (lines : list text) : Prop := Forall (fun l => forall v', ~ sets k l v') lines.

(** The port: a setting in plain decimal digits, or else the port asked for. *)
Definition port_of (lines : list text) (default n : Z) : Prop :=
  (exists t, setting "rpcport" lines t /\ t <> [] /\ number t n) \/ (unset "rpcport" lines /\ n = default).
(** The same word but for capital letters. *)
Definition same_word (s w : text) : Prop := Forall2 (fun c d => c = d \/ (N_of_ascii c + 32 = N_of_ascii d /\ 65 <= N_of_ascii c <= 90)%N) s w.
Definition ssl_of (lines : list text) (b : bool) : Prop :=
  (unset "rpcssl" lines /\ b = false) \/
  (exists t, setting "rpcssl" lines t /\
     (b = false /\ (same_word t (txt "0") \/ same_word t (txt "false")) \/ b = true /\ (same_word t (txt "1") \/ same_word t (txt "true")))).

(** Characters that may stand in a user name or password without changing the meaning of a URL. *)
Definition clean (s : text) : Prop := Forall (fun c => ~ In c (txt "/?#[]") /\ ~ In (N_of_ascii c) [9; 10; 13]%N) s.

(** Basic authentication (RFC 7617): the base64 text of the credentials. *)
Definition alphabet64 : text := txt "ABCDEFGHIJKLMNOPQRSTUVWXYZabcdefghijklmnopqrstuvwxyz0123456789+/".
Definition digit64 (c : ascii) (n : N) : Prop := nth_error alphabet64 (N.to_nat n) = Some c.
Inductive base64 : text -> text -> Prop :=
| b64_nil : base64 [] []
| b64_one : forall a c1 c2 n1 n2, digit64 c1 n1 -> digit64 c2 n2 -> (N_of_ascii a * 16 = n1 * 64 + n2)%N -> base64 [c1; c2; "="%char; "="%char] [a]
| b64_two : forall a b c1 c2 c3 n1 n2 n3, digit64 c1 n1 -> digit64 c2 n2 -> digit64 c3 n3 ->
    ((N_of_ascii a * 256 + N_of_ascii b) * 4 = n1 * 4096 + n2 * 64 + n3)%N -> base64 [c1; c2; c3; "="%char] [a; b]
| b64_three : forall a b c t s c1 c2 c3 c4 n1 n2 n3 n4, digit64 c1 n1 -> digit64 c2 n2 -> digit64 c3 n3 -> digit64 c4 n4 ->
    (N_of_ascii a * 65536 + N_of_ascii b * 256 + N_of_ascii c = n1 * 262144 + n2 * 4096 + n3 * 64 + n4)%N -> base64 t s ->
    base64 (c1 :: c2 :: c3 :: c4 :: t) (a :: b :: c :: s).
Definition basic (header : text) (user password : text) : Prop := exists t, header = txt "Basic " ++ t /\ base64 t (user ++ ":"%char :: password).

(** ASCII. *)
Definition ascii_text (s : text) : Prop := Forall (fun c => (N_of_ascii c < 128)%N) s.

(** The address of a service with a host name: scheme, user, password, host, port and what follows.  Host names have letters, digits, points and
    hyphens. *)
Definition host_name (h : text) : Prop :=
  h <> [] /\ Forall (fun c => exists d, In d (txt "abcdefghijklmnopqrstuvwxyzABCDEFGHIJKLMNOPQRSTUVWXYZ0123456789.-") /\ c = d) h.
Definition rest_of_url (r : text) : Prop := r = [] \/ exists c r', r = c :: r' /\ In c (txt "/?#").

(** The port a proxy asks for if the file names none: the argument of the constructor, or that of the network. *)
Definition asked_port (pr : prefixes) (service_port : option Z) (d : Z) : Prop :=
  service_port = Some d \/ (service_port = None /\ (pr = mainnet /\ d = 8332%Z \/ (pr = testnet \/ pr = regtest) /\ d = 18332%Z)).
(** The scheme of a URL, in small or capital letters, and whether it asks for TLS. *)
Definition scheme_of (s : text) (tls : bool) : Prop := same_word s (txt (if tls then "https" else "http")).
(** The port in a URL: ":" and decimal digits; or nothing. *)
Definition names_port (pt : text) (n : Z) : Prop := exists t, pt = ":"%char :: t /\ t <> [] /\ number t n.
(** [t] is [s] in small letters. *)
Definition small_letters (s t : text) : Prop :=
  Forall2 (fun c d => ((65 <= N_of_ascii c <= 90 /\ N_of_ascii d = N_of_ascii c + 32) \/ (~ (65 <= N_of_ascii c <= 90) /\ d = c))%N) s t.
