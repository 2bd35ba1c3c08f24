(** Model of the login to NASA Earthdata and of the functions on its tokens:
    pyTMD/utilities.py lines 944-1275.

    What a person types is a sequence of user names and a sequence of passwords;
    what the functions do outside is a list of events.  The host accepts pairs of
    a user name and a password.  An UnboundLocalError is a NameError, a
    RuntimeError is OtherError.
    Simplification: the SSL context and the time-out are left out; that getpass
    and input end is taken for granted. *)
From Coq Require Import String List Bool Arith.
From Verif Require Import PyBase.
Import ListNotations.
Open Scope string_scope.

(** handlers of an opener: lines 1066-1084 *)
Inductive handler := Passwords (urs user password : string) | Cookies | Https | Redirects.
Record opener := Opener { o_handlers : list handler; o_header : option (string * string) }.
Definition is_redirect (h : handler) : bool := match h with Redirects => true | _ => false end.

(** urllib.request.build_opener (standard library): handlers of the default
    classes are there unless one of the class is given; of the default classes
    only that for redirects matters here, the one for https being always given *)
Definition urllib_opener (given : list handler) : list handler :=
  if existsb is_redirect given then given else (given ++ [Redirects])%list.

(** build_opener: lines 1065-1097 *)
Definition build_opener (user password : string) (password_manager redirect authorization_header : bool)
  (urs : string) : opener :=
  let given := ((if password_manager then [Passwords urs user password] else [])
                ++ [Cookies; Https] ++ (if redirect then [Redirects] else []))%list in
  Opener (urllib_opener given) (if authorization_header then Some (user, password) else None).

Inductive event :=
| AskUser
| AskPassword (of : string)
| Install (o : opener)
| Request (post : bool) (url : string).

(** [not username]: lines 999-1001 *)
Definition missing (s : option string) : option string :=
  match s with Some EmptyString => None | s => s end.

(** kwargs.setdefault: lines 985-986; a key given as None is a key given *)
Definition setdefault (given : option (option string)) (env : option string) : option string :=
  match given with Some v => v | None => env end.

(** lines 989-997: the entry of the .netrc file, None if anything fails *)
Definition stored (netrc : option (option string * option string))
  (given_user given_password : option (option string)) (env_user env_password : option string)
  : option string * option string :=
  match netrc with
  | Some entry => entry
  | None => (setdefault given_user env_user, setdefault given_password env_password)
  end.

Section LOGIN.
Variables (names words : nat -> string).       (* what is typed *)
Variable accepts : string -> string -> bool.   (* lines 1259-1275, with the opener in use *)
Variable build : string -> string -> opener.

(** lines 1004-1025; [prompt] is bound only if the password was asked for at
    lines 1001-1003, [i] and [j] count what has been typed *)
Fixpoint tries (retries : nat) (prompt : option string) (user password : string) (i j : nat)
  : list event * res opener :=
  match retries with
  | O => ([], Err OtherError)
  | S retries =>
      let o := build user password in
      if accepts user password then ([Install o], Ok o)
      else match prompt with
           | None => ([Install o; AskUser], Err NameError)
           | Some who =>
               let '(es, r) := tries retries prompt (names i) (words j) (S i) (S j) in
               (Install o :: AskUser :: AskPassword who :: es, r)
           end
  end.

(** attempt_login: lines 985-1025 *)
Definition login (retries : nat) (start : option string * option string) : list event * res opener :=
  let '(e1, user, i) := match missing (fst start) with
                        | Some u => ([], u, O)
                        | None => ([AskUser], names O, 1)
                        end in
  let '(e2, password, prompt, j) := match missing (snd start) with
                                    | Some p => ([], p, None, O)
                                    | None => ([AskPassword user], words O, Some user, 1)
                                    end in
  let '(e3, r) := tries retries prompt user password i j in
  ((e1 ++ e2 ++ e3)%list, r).
End LOGIN.

Definition attempt_login names words accepts (urs : string)
  (password_manager redirect authorization_header : bool) (retries : option nat)
  netrc given_user given_password env_user env_password : list event * res opener :=
  login names words accepts
    (fun u p => build_opener u p password_manager redirect authorization_header urs)
    (match retries with Some n => n | None => 5 end)
    (stored netrc given_user given_password env_user env_password).

(** get_token, list_tokens, revoke_token: lines 1130-1150, 1183-1203, 1234-1256;
    [answer] is what the host answers, None an HTTPError or an URLError *)
Section TOKENS.
Variables (names words : nat -> string) (accepts : string -> string -> bool).
Variable J : Type.
Variable answer : bool -> string -> option J.
Definition token_request (post : bool) (url : string) (username password : option string) (build : bool)
  netrc env_user env_password : list event * res J :=
  let '(es, r) := if build
    then let '(es, r) := attempt_login names words accepts "urs.earthdata.nasa.gov" false false true None
           netrc (Some username) (Some password) env_user env_password in
         (es, match r with Ok _ => Ok tt | Err e => Err e end)
    else ([], Ok tt) in
  match r with
  | Err e => (es, Err e)
  | Ok _ => ((es ++ [Request post url])%list,
             match answer post url with Some a => Ok a | None => Err OtherError end)
  end.
Definition get_token (HOST : string) := token_request true HOST.
Definition list_tokens (HOST : string) := token_request false HOST.
Definition revoke_token (token HOST : string) := token_request true (HOST ++ "?token=" ++ token).
End TOKENS.

(** cddis_list and from_cddis: lines 1319-1336 and 1420-1439.  [entry] is the
    entry of the .netrc file, the exception raised if there is none; the second
    value is the text encoded in the header of the request *)
Definition format (s : option string) : string := match s with Some v => v | None => "None" end.
Definition cddis_login (accepts : option string -> option string -> bool) (build : bool)
  (username password : option string) (entry : res (string * string))
  : res (option (option string * option string) * string) :=
  do up <- match build, missing username, missing password with
           | true, None, None => do e <- entry ;; Ok (Some (fst e), Some (snd e))
           | _, _, _ => Ok (username, password)
           end ;;
  let header := format (fst up) ++ ":" ++ format (snd up) in
  if build then
    if accepts (fst up) (snd up) then Ok (Some up, header) else Err OtherError
  else Ok (None, header).
