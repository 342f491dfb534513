(** Model of net/url's Parse (Go 1.15) for URLs that start with https://, the only
    ones that reach it (basic_client.go:69, vanguard_client.go:54 and 84,
    discovercard_client.go:41 and 84). [None] is an error. *)
From Verif Require Import GoStr GoNum Codec.
Local Open Scope N_scope.

Record url := mkUrl {
  u_host : str;      (* URL.Host: host and port, without user *)
  u_path : str;      (* URL.Path, unescaped *)
  u_query : str      (* URL.RawQuery *)
}.

(** url.go: split, the text before and after the first [c]. *)
Fixpoint cut (c : ascii) (s : str) : str * str :=
  match s with
  | [] => ([], [])
  | d :: r => if Ascii.eqb c d then ([], r) else let x := cut c r in (d :: fst x, snd x)
  end.

(** strings.LastIndex for one byte: the text before and after the last [c]. *)
Fixpoint cut_last (c : ascii) (s : str) : option (str * str) :=
  match s with
  | [] => None
  | d :: r =>
      match cut_last c r with
      | Some (a, b) => Some (d :: a, b)
      | None => if Ascii.eqb c d then Some ([], r) else None
      end
  end.

Definition is_hex (c : ascii) : bool :=
  is_digit c || ((97 <=? code c) && (code c <=? 102)) || ((65 <=? code c) && (code c <=? 70)).

Definition unhex (c : ascii) : N :=
  if is_digit c then code c - 48
  else if 97 <=? code c then code c - 97 + 10 else code c - 65 + 10.

Definition alnum (c : ascii) : bool := is_digit c || is_upper c || is_lower c.

Definition mem (c : ascii) (s : str) : bool := existsb (Ascii.eqb c) s.

(** shouldEscape for hosts. *)
Definition host_escape (c : ascii) : bool := negb (alnum c || mem c (bs "!$&'()*+,;=:[]<>""-_.~")).

Inductive mode := MPlain | MHost | MZone.

(** unescape: modes encodePath, encodeFragment and encodeUserPassword behave
    alike here and are [MPlain]. *)
Fixpoint unescape (m : mode) (s : str) : option str :=
  match s with
  | [] => Some []
  | c :: r =>
      if Ascii.eqb c "%" then
        match r with
        | a :: b :: r' =>
            if negb (is_hex a && is_hex b) then None
            else
              let v := chr (unhex a * 16 + unhex b) in
              let pct := str_eqb [a; b] (bs "25") in
              let bad := match m with
                         | MPlain => false
                         | MHost => (unhex a <? 8) && negb pct
                         | MZone => negb pct && negb (Ascii.eqb v " ") && host_escape v
                         end in
              if bad then None else option_map (cons v) (unescape m r')
        | _ => None
        end
      else
        let bad := match m with
                   | MPlain => false
                   | _ => (code c <? 128) && host_escape c
                   end in
        if bad then None else option_map (cons c) (unescape m r)
  end.

(** validOptionalPort. *)
Definition valid_port (s : str) : bool :=
  match s with
  | [] => true
  | c :: r => Ascii.eqb c ":" && forallb is_digit r
  end.

(** parseHost. *)
Definition parse_host (h : str) : option str :=
  if has_prefix (bs "[") h then
    match cut_last "]" h with
    | None => None
    | Some (inner, port) =>
        if negb (valid_port port) then None
        else match index_of (bs "%25") inner with
             | Some i =>
                 a <- unescape MHost (firstn i inner) ;;
                 b <- unescape MZone (skipn i inner) ;;
                 c <- unescape MHost ("]"%char :: port) ;;
                 Some (a ++ b ++ c)
             | None => unescape MHost h
             end
    end
  else
    match cut_last ":" h with
    | Some (_, p) => if forallb is_digit p then unescape MHost h else None
    | None => unescape MHost h
    end.

(** validUserinfo. *)
Definition valid_userinfo (s : str) : bool :=
  forallb (fun c => alnum c || mem c (bs "-._:~!$&'()*+,;=%@")) s.

(** parseAuthority, without the user it returns. *)
Definition parse_authority (s : str) : option str :=
  match cut_last "@" s with
  | None => parse_host s
  | Some (user, h) =>
      host <- parse_host h ;;
      if negb (valid_userinfo user) then None
      else
        let x := cut ":" user in
        _ <- unescape MPlain (fst x) ;;
        _ <- unescape MPlain (snd x) ;;
        Some host
  end.

(** Parse of a URL that starts with https://. *)
Definition parse_url (s : str) : option url :=
  let x := cut "#" s in
  if existsb (fun c => (code c <? 32) || (code c =? 127)) (fst x) then None
  else
    let y := cut "?" (skipn 8 (fst x)) in
    let auth := fst (cut "/" (fst y)) in
    host <- parse_authority auth ;;
    path <- unescape MPlain (skipn (length auth) (fst y)) ;;
    _ <- unescape MPlain (snd x) ;;
    Some (mkUrl host path (snd y)).

(** splitHostPort. *)
Definition split_host_port (h : str) : str * str :=
  let x := match cut_last ":" h with
           | Some (a, p) => if forallb is_digit p then (a, p) else (h, [])
           | None => (h, [])
           end in
  let a := fst x in
  (if has_prefix (bs "[") a && has_suffix (bs "]") a then removelast (skipn 1 a) else a, snd x).

(** URL.Hostname and URL.Port. *)
Definition hostname (u : url) : str := fst (split_host_port (u_host u)).
Definition port (u : url) : str := snd (split_host_port (u_host u)).
