(** Executable model of the constructor of lib/python-bitcoinlib/bitcoin/rpc.py:57-128 (cited as rpc.py): bitcoin.conf, the
    address of the service, the credentials.  urllib.parse, int, str and base64 are modelled by what is used of them here, as of
    Python 3.11.  Texts are ASCII; a file with another character is refused, which is what Python does
    if the encoding of the locale is ASCII. *)
From Verif Require Import Base Base58_Model Money_Model Rpc_Model.
#[local] Open Scope list_scope.

(** ** Texts *)

(** rpc.py:87-89: characters and literals. *)
Definition txt (s : string) : text := list_ascii_of_string s.
(** Comparison with a literal (rpc.py:87, 96-98). *)
Definition is_text (s : text) (l : string) : bool := String.eqb (string_of_list_ascii s) l.
(** ord(), for the classes of characters in rpc.py:89, 96, 109. *)
Definition code (c : ascii) : N := N_of_ascii c.
(** rpc.py:89 [str.strip()]: white space, of ASCII. *)
Definition is_space (c : ascii) : bool := (((9 <=? code c) && (code c <=? 13)) || ((28 <=? code c) && (code c <=? 32)))%N.
(** rpc.py:89 [s.strip()]. *)
Fixpoint drop_while (p : ascii -> bool) (s : text) : text :=
  match s with c :: s' => if p c then drop_while p s' else s | [] => [] end.
(** rpc.py:89 [s.strip()]: at both ends. *)
Definition strip (s : text) : text := rev (drop_while is_space (rev (drop_while is_space s))).
(** rpc.py:84-88 [line.index('#')], [line.split('=', 1)], and [s.partition(c)] in urllib.parse as used by rpc.py:109: before, after the first [c]; [None] if there is none. *)
Fixpoint partition (c : ascii) (s : text) : option (text * text) :=
  match s with
  | [] => None
  | x :: s' => if Ascii.eqb x c then Some ([], s') else match partition c s' with Some (a, b) => Some (x :: a, b) | None => None end
  end.
(** [s.rpartition(c)] in urllib.parse as used by rpc.py:110, 115. *)
Definition rpartition (c : ascii) (s : text) : option (text * text) :=
  match partition c (rev s) with Some (b, a) => Some (rev a, rev b) | None => None end.
(** rpc.py:84, 86 [c in s]. *)
Definition has (c : ascii) (s : text) : bool := existsb (Ascii.eqb c) s.
(** rpc.py:96 [s.lower()]; classes of characters in urllib.parse (rpc.py:109). *)
Definition lower1 (c : ascii) : ascii := if ((65 <=? code c) && (code c <=? 90))%N then ascii_of_N (code c + 32) else c.
(** rpc.py:96 [s.lower()] of a text. *)
Definition lower (s : text) : text := map lower1 s.
(** 0-9 in urllib.parse (rpc.py:109). *)
Definition is_digit (c : ascii) : bool := ((48 <=? code c) && (code c <=? 57))%N.
(** a-z, A-Z in urllib.parse (rpc.py:109). *)
Definition is_alpha (c : ascii) : bool := (((65 <=? code c) && (code c <=? 90)) || ((97 <=? code c) && (code c <=? 122)))%N.

(** rpc.py:93, 110: decimal digits; underscores may stand between them if [under] says so.  [first]: a digit must come next. *)
Fixpoint int10 (under first : bool) (acc : Z) (s : text) : option Z :=
  match s with
  | [] => if first then None else Some acc
  | c :: s' =>
    if is_digit c then int10 under false (10 * acc + (Z.of_N (code c) - 48)) s'
    else if under && Ascii.eqb c "_" && negb first then int10 under true acc s' else None
  end.
(** rpc.py:93 [int(s)].  Simplified: texts of more than 4300 digits, for which Python raises ValueError, are converted here. *)
Definition int_of (s : text) : result Z :=
  let '(neg, d) := match strip s with
                   | c :: s' => if Ascii.eqb c "-" then (true, s') else if Ascii.eqb c "+" then (false, s') else (false, c :: s')
                   | [] => (false, [])
                   end in
  match int10 true true 0 d with Some n => Ok (if neg : bool then (- n)%Z else n) | None => Err ValueError end.

(** ** bitcoin.conf *)

(** rpc.py:81-83 [fd.readlines()] of a file opened as text: "\r\n" and "\r" end lines as well.  The lines are
    given without their ends, which strip() would remove.  [cr]: the character before was "\r". *)
Fixpoint read_lines (cr : bool) (cur : text) (s : text) : list text :=
  match s with
  | [] => [rev cur]
  | c :: s' =>
    if (code c =? 10)%N then if cr then read_lines false [] s' else rev cur :: read_lines false [] s'
    else if (code c =? 13)%N then rev cur :: read_lines true [] s'
    else read_lines false (c :: cur) s'
  end.
(** rpc.py:84-89, one line. *)
Definition conf_line (conf : list (string * text)) (line : text) : list (string * text) :=
  let line := match partition "#" line with Some (a, _) => a | None => line end in
  match partition "=" line with
  | None => conf
  | Some (k, v) => dset (string_of_list_ascii (strip k)) (strip v) conf
  end.
(** rpc.py:82-89: all lines. *)
Definition read_conf (file : text) : result (list (string * text)) :=
  if existsb (fun c => 128 <=? code c)%N file then Err UnicodeDecodeError
  else Ok (fold_left conf_line (read_lines false [] file) []).

(** bitcoin/__init__.py:19, 32, 42 [RPC_PORT] of mainnet, testnet and regtest. *)
Definition rpc_port (pr : prefixes) : Z := if (PUBKEY_ADDR pr =? 0)%N then 8332 else 18332.

(** rpc.py:91-106: the service_url; [service_port] is an argument of the constructor. *)
Definition conf_url (conf : list (string * text)) (pr : prefixes) (service_port : option Z) : result text :=
  let service_port := match service_port with Some p => p | None => rpc_port pr end in
  do port <- match dget "rpcport" conf with Some t => int_of t | None => Ok service_port end;
  let ssl := match dget "rpcssl" conf with Some t => t | None => txt "0" end in
  do ssl <- (if existsb (is_text (lower ssl)) ["0"%string; "false"%string] then Ok false
             else if existsb (is_text (lower ssl)) ["1"%string; "true"%string] then Ok true else Err ValueError);
  do user <- key "rpcuser" conf;
  do password <- key "rpcpassword" conf;
  Ok (txt (if ssl : bool then "https" else "http") ++ txt "://" ++ user ++ txt ":" ++ password ++ txt "@localhost:" ++ fmt_i port).

(** ** URLs *)

Section Url.
(** Whether ipaddress accepts the text between brackets (urllib.parse._check_bracketed_host). *)
Context (ip_ok : text -> bool).

(** rpc.py:109 [urlparse.urlparse(service_url)], urllib.parse.urlsplit: scheme and network location; path, query and fragment are left out. *)
Definition scheme_char (c : ascii) : bool := is_alpha c || is_digit c || Ascii.eqb c "+" || Ascii.eqb c "-" || Ascii.eqb c ".".
(** rpc.py:109, urllib.parse: the text up to the first of some characters. *)
Fixpoint until (p : ascii -> bool) (s : text) : text :=
  match s with c :: s' => if p c then [] else c :: until p s' | [] => [] end.
(** rpc.py:109 [urlparse.urlparse(service_url)]: scheme and network location. *)
Definition urlsplit (url : text) : result (text * text) :=
  let url := drop_while (fun c => code c <=? 32)%N url in
  let url := filter (fun c => negb ((code c =? 9) || (code c =? 13) || (code c =? 10))%N) url in
  let '(scheme, url) :=
    match partition ":" url with
    | Some (c :: a, b) => if is_alpha c && forallb scheme_char (c :: a) then (lower (c :: a), b) else ([], url)
    | _ => ([], url)
    end in
  match url with
  | x :: y :: rest =>
    if Ascii.eqb x "/" && Ascii.eqb y "/" then
      let netloc := until (fun c => Ascii.eqb c "/" || Ascii.eqb c "?" || Ascii.eqb c "#") rest in
      if xorb (has "[" netloc) (has "]" netloc) then Err ValueError
      else if has "[" netloc then
        let inner := match partition "[" netloc with Some (_, b) => b | None => [] end in
        let host := match partition "]" inner with Some (a, _) => a | None => inner end in
        if ip_ok host then Ok (scheme, netloc) else Err ValueError
      else Ok (scheme, netloc)
    else Ok (scheme, [])
  | _ => Ok (scheme, [])
  end.

(** rpc.py:115, urllib.parse [_userinfo]: username and password. *)
Definition userinfo (netloc : text) : option text * option text :=
  match rpartition "@" netloc with
  | None => (None, None)
  | Some (u, _) => match partition ":" u with Some (a, b) => (Some a, Some b) | None => (Some u, None) end
  end.
(** rpc.py:110, 123, urllib.parse [_hostinfo]: host and port, as texts. *)
Definition hostinfo (netloc : text) : text * option text :=
  let h := match rpartition "@" netloc with Some (_, h) => h | None => netloc end in
  let '(host, port) :=
    match partition "[" h with
    | Some (_, b) =>
      let '(host, rest) := match partition "]" b with Some (a, r) => (a, r) | None => (b, []) end in
      (host, match partition ":" rest with Some (_, p) => p | None => [] end)
    | None => match partition ":" h with Some (a, p) => (a, p) | None => (h, []) end
    end in
  (host, match port with [] => None | _ => Some port end).
(** rpc.py:110-113, 123, urllib.parse [hostname] and [port]. *)
Definition hostname (netloc : text) : option text :=
  match fst (hostinfo netloc) with
  | [] => None
  | h => Some (match partition "%" h with Some (a, z) => lower a ++ "%"%char :: z | None => lower h end)
  end.
(** rpc.py:110-113, urllib.parse [port]. *)
Definition url_port (netloc : text) : result (option Z) :=
  match snd (hostinfo netloc) with
  | None => Ok None
  | Some p =>
    match int10 false true 0 p with
    | Some n => if (n <=? 65535)%Z then Ok (Some n) else Err ValueError
    | None => Err ValueError
    end
  end.

(** rpc.py:117 [base64.b64encode]. *)
Definition b64_char (n : N) : ascii :=
  nth (N.to_nat n) (txt "ABCDEFGHIJKLMNOPQRSTUVWXYZabcdefghijklmnopqrstuvwxyz0123456789+/") "A"%char.
(** rpc.py:117: three bytes at a time. *)
Fixpoint b64encode (s : text) : text :=
  match s with
  | a :: b :: c :: s' =>
    let n := (code a * 65536 + code b * 256 + code c)%N in
    b64_char (n / 262144) :: b64_char (n / 4096 mod 64) :: b64_char (n / 64 mod 64) :: b64_char (n mod 64) :: b64encode s'
  | [a; b] =>
    let n := (code a * 65536 + code b * 256)%N in
    [b64_char (n / 262144); b64_char (n / 4096 mod 64); b64_char (n / 64 mod 64); "="%char]
  | [a] => let n := (code a * 65536)%N in [b64_char (n / 262144); b64_char (n / 4096 mod 64); "="%char; "="%char]
  | [] => []
  end.

(** rpc.py:117-128: what a proxy is connected to: the host (None is the local one), port, whether by TLS, and its header Authorization. *)
Record conn := Conn { c_host : option text; c_port : Z; c_ssl : bool; c_auth : text }.

(** rpc.py:109-128: the connection for a URL; the header is made of username and password, 'None' if there are none. *)
Definition shown (s : option text) : text := match s with Some t => t | None => txt "None" end.
(** rpc.py:109-128: all of it. *)
Definition connect (url : text) : result conn :=
  do (scheme, netloc) <- urlsplit url;
  do p <- url_port netloc;
  let port := match p with Some p => p | None => 80%Z end in
  let '(u, w) := userinfo netloc in
  Ok (Conn (hostname netloc) port (is_text scheme "https") (txt "Basic " ++ b64encode (shown u ++ txt ":" ++ shown w))).

(** rpc.py:59-128 [RawProxy(service_url, service_port, btc_conf_file)]; [file] is what the configuration file contains, None if
    it cannot be opened. *)
Definition raw_proxy (pr : prefixes) (service_url : option text) (service_port : option Z) (file : option text) : result conn :=
  do url <- match service_url with
            | Some u => Ok u
            | None => match file with None => Err OSError | Some f => do conf <- read_conf f; conf_url conf pr service_port end
            end;
  connect url.

End Url.
