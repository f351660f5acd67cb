(** * Model of configuration loading, the listener table and log records
    (src/common/config.c, listen.c, log.c, config.h, listen.h, log.h). No proofs here. *)
From Coq Require Import String.
From Verif Require Import Base Str_Spec.

(** ** JSON documents as the parser hands them over (cJSON.h:100-130).
    A number is represented by its value truncated towards zero; the string of an
    item is cut at its first NUL, as every use of it does. *)
Inductive json :=
| JNull
| JBool (b : bool)
| JNum (v : Z)
| JStr (s : list Z)
| JArr (l : list json)
| JObj (l : list (list Z * json)).

Definition INT_MAX : Z := 2147483647.
Definition INT_MIN : Z := - 2147483648.

(** cJSON.c:359-373, 1338: field [valueint] *)
Definition valueint (j : json) : Z :=
  match j with
  | JNum v => Z.max INT_MIN (Z.min INT_MAX v)
  | JBool true => 1
  | _ => 0
  end.

(** cJSON.c:1828-1878: the children of an item, whatever its type *)
Definition children (j : json) : list json :=
  match j with JArr l => l | JObj l => map snd l | _ => [] end.

Definition lower (b : Z) : Z := if (65 <=? b) && (b <=? 90) then b + 32 else b.
(** cJSON.c:133-154 *)
Fixpoint same_key (a b : list Z) : bool :=
  match a, b with
  | [], [] => true
  | x :: a', y :: b' => (lower x =? lower y) && same_key a' b'
  | _, _ => false
  end.
Fixpoint find_key (k : list Z) (l : list (list Z * json)) : option json :=
  match l with
  | [] => None
  | (n, v) :: t => if same_key k n then Some v else find_key k t
  end.
(** cJSON.c:1880-1915 [cJSON_GetObjectItem]: children of an array have no name *)
Definition get_item (j : json) (k : list Z) : option json :=
  match j with JObj l => find_key k l | _ => None end.
(** cJSON.c:99-107 [cJSON_GetStringValue]: NULL unless the item is a string *)
Definition string_value (j : json) : option (list Z) :=
  match j with JStr s => Some s | _ => None end.

(** ** config.h:10-42 [config_t]. Character arrays are represented by the string
    they hold; their sizes appear in [copy]. *)
Record conf := Conf {
  sys_daemon : Z; sys_process_num : Z; sys_log_level : Z;
  ssl_crt_path : list Z; ssl_key_path : list Z;
  s5_mode : Z; s5_serv_port : Z; s5_serv_auth_path : list Z; s5_serv_gw : list Z;
  s5_local_port : Z; s5_local_serv_port : Z; s5_local_serv_ip : list Z; s5_local_auth : list Z;
  http_num : Z; https_num : Z; http_arr : list Z; https_arr : list Z;
  http_home : list Z; http_index : list Z }.

Definition OPEN_PORT_MAX : Z := 64.        (* macro.h:66 *)
Definition FILEPATH : Z := 256.            (* macro.h:143 *)
Definition IPV4 : Z := 16.                 (* macro.h:142 *)

(** config.c:110-111: memset 0, full log level *)
Definition conf0 : conf :=
  Conf 0 0 255 [] [] 0 0 [] [] 0 0 [] [] 0 0 (zrepeat 0 OPEN_PORT_MAX) (zrepeat 0 OPEN_PORT_MAX) [] [].

(** an optional integer member, config.c:12-17, 37-38 *)
Definition opt_int (root : json) (k : string) (old : Z) : Z :=
  match get_item root (str k) with Some j => valueint j | None => old end.
(** an optional port, stored in an unsigned short, config.c:39-40, 55-58 *)
Definition opt_port (root : json) (k : string) (old : Z) : Z :=
  match get_item root (str k) with Some j => valueint j mod 65536 | None => old end.
(** an optional string, config.c:25-28 and others: [strncpy(dst, value, max)] where the
    destination has [max + 1] zeroed bytes; a NULL value is dereferenced *)
Definition opt_str (root : json) (k : string) (max : Z) (old : list Z) : res (list Z) :=
  match get_item root (str k) with
  | None => Ok old
  | Some j => match string_value j with
              | None => Fault FNull
              | Some s => Ok (ztake max s)
              end
  end.
(** config.c:73-80: the port list is copied with no check against the array *)
Fixpoint fill (arr : list Z) (i : Z) (l : list json) : res (list Z) :=
  match l with
  | [] => Ok arr
  | j :: t => match zput arr i [valueint j mod 65536] with
              | None => Fault FOob
              | Some a => fill a (i + 1) t
              end
  end.
Definition opt_arr (root : json) (k : string) (old : list Z) : res (list Z) :=
  match get_item root (str k) with None => Ok old | Some j => fill old 0 (children j) end.
(** config.c:86, 90: the number of entries, 0 if the member is absent *)
Definition arr_size (root : json) (k : string) : Z :=
  match get_item root (str k) with None => 0 | Some j => zlen (children j) end.

(** config.c:5-102 [config_parse] on a parsed document *)
Definition config_take (c : conf) (root : json) : res conf :=
  let* crt := opt_str root "ssl_crt_path" FILEPATH (ssl_crt_path c) in
  let* key := opt_str root "ssl_key_path" FILEPATH (ssl_key_path c) in
  let* auth := opt_str root "s5_serv_auth_path" FILEPATH (s5_serv_auth_path c) in
  let* gw := opt_str root "s5_serv_gw" 31 (s5_serv_gw c) in
  let* ip := opt_str root "s5_local_serv_ip" IPV4 (s5_local_serv_ip c) in
  let* la := opt_str root "s5_local_auth" 32 (s5_local_auth c) in
  let* ha := opt_arr root "http_arr" (http_arr c) in
  let* hs := opt_arr root "https_arr" (https_arr c) in
  let* home := opt_str root "http_home" FILEPATH (http_home c) in
  let* index := opt_str root "http_index" FILEPATH (http_index c) in
  Ok (Conf (opt_int root "sys_daemon" (sys_daemon c)) (opt_int root "sys_process" (sys_process_num c))
       (opt_int root "sys_log_level" (sys_log_level c)) crt key
       (opt_int root "s5_mode" (s5_mode c)) (opt_port root "s5_serv_port" (s5_serv_port c)) auth gw
       (opt_port root "s5_local_port" (s5_local_port c))
       (opt_port root "s5_local_serv_port" (s5_local_serv_port c)) ip la
       (arr_size root "http_arr") (arr_size root "https_arr") ha hs home index).

(** what the file system does with the configuration file: it is missing, cannot be
    opened, or delivers these bytes (all of them, or fewer if a read fails) *)
Inductive cfile := NoFile | NoOpen | Bytes (b : list Z).

(** config.c:109-143 [config_init]; the text ends at the first NUL. The parser is a
    parameter ([None]: malformed text). The return value is 0 on every path. *)
Definition config_init (parse : list Z -> option json) (f : cfile) : res (Z * conf) :=
  match f with
  | NoFile | NoOpen => Ok (0, conf0)
  | Bytes b =>
      match parse b with
      | None => Ok (0, conf0)
      | Some root => let* c := config_take conf0 root in Ok (0, c)
      end
  end.

(** ** The listener table, listen.c *)
Inductive lkind := LTunC | LTunS | LHttp | LHttps.
(** listen.h:9-19; [opened]: socket, bind and listen succeeded *)
Record lslot := Lslot { lport : Z; lkind_ : lkind; opened : bool }.
Definition NSLOT : Z := 8.

(** listen.c:10-23: slots are used in order, so the table is the list of used slots *)
Definition listen_add (t : list lslot) (port : Z) (k : lkind) : list lslot * Z :=
  if zlen t <? NSLOT then (t ++ [Lslot port k false], 0) else (t, -1).

(** listen.c:69-73: the result of [listen_add] is ignored; reading past the port array
    is a fault *)
Fixpoint add_ports (t : list lslot) (arr : list Z) (i : Z) (n : nat) (k : lkind) : res (list lslot) :=
  match n with
  | O => Ok t
  | S n' => match zget arr i with
            | None => Fault FOob
            | Some p => add_ports (fst (listen_add t p k)) arr (i + 1) n' k
            end
  end.

(** listen.c:50-58: open the slots in order; the first failure ends it. [oks] are the
    results of [listen_set_opt] (26-48); missing results count as success *)
Fixpoint listen_start (t : list lslot) (oks : list bool) : list lslot * Z :=
  match t with
  | [] => ([], 0)
  | s :: r =>
      let ok := match oks with [] => true | b :: _ => b end in
      if ok then let (r', rc) := listen_start r (tl oks) in (Lslot (lport s) (lkind_ s) true :: r', rc)
      else (s :: r, -1)
  end.

(** listen.c:60-77 *)
Definition listen_init (c : conf) (oks : list bool) : res (list lslot * Z) :=
  let t0 := if s5_mode c =? 1 then fst (listen_add [] (s5_local_port c) LTunC)
            else if s5_mode c =? 2 then fst (listen_add [] (s5_serv_port c) LTunS) else [] in
  let* t1 := add_ports t0 (http_arr c) 0 (Z.to_nat (http_num c)) LHttp in
  let* t2 := add_ports t1 (https_arr c) 0 (Z.to_nat (https_num c)) LHttps in
  Ok (listen_start t2 oks).

(** main.c:119-122, modules.c:31-37 start-up as far as configuration and listeners go:
    the exit status of the start-up sequence and the table *)
Definition startup (parse : list Z -> option json) (f : cfile) (oks : list bool) : res (Z * list lslot) :=
  let* rc := config_init parse f in
  if fst rc =? 0 then
    let* t := listen_init (snd rc) oks in Ok (snd t, fst t)
  else Ok (-1, []).

(** ** Log records, log.c *)
Definition LOG_TEXT : Z := 512.            (* log.h:9 *)
Definition SIZE_MOD : Z := 18446744073709551616.

(** log.c:11-15 *)
Definition label (level : Z) : option (list Z) :=
  zget [str "[error]"; str "[debug]"; str "[info]"] level.

(** snprintf/vsnprintf: write the formatted bytes [s] at [pos] of [buf], at most
    [size - 1] of them followed by a NUL (nothing if [size] is 0) *)
Definition snprint (buf : list Z) (pos size : Z) (s : list Z) : res (list Z) :=
  if size <=? 0 then Ok buf
  else of_opt FOob (zput buf pos (ztake (Z.min (size - 1) (zlen s)) s ++ [0])).

(** log.c:58-84 [log_print] with 17-29: [func_line] are the bytes of
    " time <func:line> " behind the label, [text] the formatted message. The result
    is the record written to standard output and, for known ids, to a file, or [None]
    if nothing is logged. The size argument [(last - pos) - 1] is a size_t; the length
    written is [pos - buffer]. *)
Definition log_print (threshold level : Z) (func_line text : list Z) : res (option (list Z)) :=
  if level <=? threshold then
    let* lab := of_opt FOob (label level) in
    let prefix := lab ++ func_line in
    let* b1 := snprint (zrepeat 0 LOG_TEXT) 0 (LOG_TEXT - 1) prefix in
    let pos := zlen prefix in
    let* b2 := snprint b1 pos ((LOG_TEXT - pos - 1) mod SIZE_MOD) text in
    let n := pos + zlen text in
    if n <=? LOG_TEXT then Ok (Some (ztake n b2)) else Fault FOverread
  else Ok None.
