(** Model of the functions of pyTMD/utilities.py on remote hosts: get_hash
    (lines 214-250), get_unix_time (386-412), ftp_list (516-595), from_ftp
    (598-690), http_list (750-822), from_http (824-904), cddis_list (1277-1366),
    from_cddis (1368-1470), iers_list (1472-1523), from_jpl_ssd (1525-1572),
    uhslc_list (1574-1628), and of scripts/verify_box_tpxo.py lines 83-136.

    The hosts answer with the values given as arguments (names, texts, times,
    contents); connections, credentials, the log and permissions are left out.
    Hash functions and the parsers of dates of the standard library and of
    dateutil are parameters. *)
From Coq Require Import String Ascii List ZArith Bool.
From Verif Require Import PyBase StrBase.
Import ListNotations.
Open Scope string_scope.

(** * listings *)
(** l[i] for i not negative *)
Definition item {A} (l : list A) (i : nat) : res A :=
  match nth_error l i with Some a => Ok a | None => Err IndexError end.

(** enumerate *)
Fixpoint enumerate {A} (k : nat) (l : list A) : list (nat * A) :=
  match l with [] => [] | a :: l => (k, a) :: enumerate (S k) l end.

(** sorted(enumerate(...), key=lambda i: i[1]): stable *)
Fixpoint insert (x : nat * string) (l : list (nat * string)) : list (nat * string) :=
  match l with
  | [] => [x]
  | y :: l' => if String.leb (snd x) (snd y) then x :: y :: l' else y :: insert x l'
  end.
Fixpoint sorted (l : list (nat * string)) : list (nat * string) :=
  match l with [] => [] | x :: l => insert x (sorted l) end.

(** lines 581-591, 810-820, 1354-1364: reduce both lists by the pattern, then
    sort both *)
Definition listed {M} (pattern : option (string -> bool)) (sort : bool)
  (names : list string) (times : list M) : res (list string * list M) :=
  do nt <- match pattern with
           | None => Ok (names, times)
           | Some search =>
               let i := map fst (filter (fun x => search (snd x)) (enumerate 0 names)) in
               do n <- mapM (item names) i ;; do t <- mapM (item times) i ;; Ok (n, t)
           end ;;
  if sort then
    let i := map fst (sorted (enumerate 0 (fst nt))) in
    do n <- mapM (item (fst nt)) i ;; do t <- mapM (item (snd nt)) i ;; Ok (n, t)
  else Ok nt.

(** the last component of a name: posixpath.basename *)
Fixpoint after_slash (s cur : string) : string :=
  match s with
  | "" => cur
  | String c s' => if Ascii.eqb c "/"%char then after_slash s' s' else after_slash s' cur
  end.
Definition base (s : string) : string := after_slash s s.

(** ftp_list, lines 562-595: the time of a directory is None *)
Definition ftp_list {M} (basename : bool) (pattern : option (string -> bool)) (sort : bool)
  (nlst : list string) (mdtm : string -> option M) : res (list string * list (option M)) :=
  let mtimes := map mdtm nlst in
  let output := if basename then map base nlst else nlst in
  listed pattern sort output mtimes.

(** http_list, lines 802-822: a row of the page has a name or none, and a time
    or none; the two columns are read separately *)
Definition filter_some {A} (l : list (option A)) : list A :=
  concat (map (fun o => match o with Some a => [a] | None => [] end) l).
Definition http_list {M} (pattern : option (string -> bool)) (sort : bool)
  (rows : list (option string * option M)) : res (list string * list M) :=
  listed pattern sort (filter_some (map fst rows)) (filter_some (map snd rows)).

(** cddis_list, lines 1342-1366: directories first, with no time *)
Definition cddis_list {M} (pattern : option (string -> bool)) (sort : bool)
  (dirs files : list string) (times : list (option M))
  : res (list string * list (option M)) :=
  listed pattern sort (dirs ++ files)%list (repeat None (length dirs) ++ times)%list.

(** iers_list, lines 1513-1523 *)
Definition iers_list {M} (names : list string) (times : list M) : list string * list M :=
  (rev names, rev times).

(** uhslc_list, lines 1614-1628: names only *)
Definition uhslc_list (pattern : option (string -> bool)) (sort : bool) (names : list string)
  : res (list string) :=
  do n <- match pattern with
          | None => Ok names
          | Some search =>
              mapM (item names)
                (map fst (filter (fun x => search (snd x)) (enumerate 0 names)))
          end ;;
  if sort then mapM (item n) (map fst (sorted (enumerate 0 n))) else Ok n.

(** * contents *)
Section BYTES.
Definition bytes := list ascii.
(** hexdigest of the algorithms of hashlib *)
Variable digest : string -> bytes -> string.
Variable available : list string.

(** the local files with their times *)
Definition files := string -> option (bytes * Z).
Definition write (p : string) (b : bytes) (t : Z) (f : files) : files :=
  fun q => if String.eqb q p then Some (b, t) else f q.

(** get_hash, lines 229-250: of a buffer, of a path, of anything else *)
Inductive target := Buffer (b : bytes) | Path (p : string) | Other.
Definition get_hash (f : files) (local : target) (algorithm : string) : res string :=
  match local with
  | Buffer b =>
      if mem_str algorithm available then Ok (digest algorithm b) else Err ValueError
  | Path p =>
      match f p with
      | None => Ok ""
      | Some (b, _) =>
          if mem_str algorithm available then Ok (digest algorithm b) else Err ValueError
      end
  | Other => Ok ""
  end.

(** shutil.copyfileobj (standard library) by [chunk] bytes at a time: all the
    rest if negative, 65536 if zero *)
Fixpoint copy_loop (fuel : nat) (n : nat) (b : bytes) : bytes :=
  match fuel with
  | O => []
  | S k => match firstn n b with
           | [] => []
           | part => (part ++ copy_loop k n (skipn n b))%list
           end
  end.
Definition copyfileobj (chunk : Z) (b : bytes) : bytes :=
  if (chunk <? 0)%Z then b
  else copy_loop (S (length b)) (if (chunk =? 0)%Z then Z.to_nat 65536 else Z.to_nat chunk) b.

(** from_http, lines 875-904, and from_cddis, lines 1442-1470: [response] is
    what the host sends, [now] the time of writing; [local] '' or None is no
    file *)
Definition from_http (now : Z) (response : bytes) (local : option string) (hash : string)
  (chunk : Z) (f : files) : bytes * files :=
  let remote_buffer := copyfileobj chunk response in
  let remote_hash := digest "md5" remote_buffer in
  match local with
  | Some p =>
      if negb (p =? "") && negb (hash =? remote_hash)
      then (remote_buffer, write p (copyfileobj chunk remote_buffer) now f)
      else (remote_buffer, f)
  | None => (remote_buffer, f)
  end.

(** from_ftp, lines 657-690: the file gets the time of the host; os.utime with
    None is a TypeError, after the file was written *)
Definition from_ftp (now : Z) (response : bytes) (remote_mtime : option Z)
  (local : option string) (hash : string) (chunk : Z) (f : files) : res bytes * files :=
  let remote_hash := digest "md5" response in
  match local with
  | Some p =>
      if negb (p =? "") && negb (hash =? remote_hash)
      then match remote_mtime with
           | Some t => (Ok response, write p (copyfileobj chunk response) t f)
           | None => (Err TypeError, write p (copyfileobj chunk response) now f)
           end
      else (Ok response, f)
  | None => (Ok response, f)
  end.

(** from_jpl_ssd, lines 1558-1566: the name on the host and the local file; the
    data directory and the last component of a path are parameters *)
Definition from_jpl_ssd (data : string -> string) (name : string -> string)
  (kernel local : option string) : res (string * string) :=
  match local, kernel with
  | None, Some k => Ok (k, data k)
  | None, None => Err TypeError
  | Some l, None => Ok (name l, l)
  | Some l, Some k => Ok (k, l)
  end.

(** verify_box_tpxo, lines 108-136: the files of the folder with their hashes
    and times *)
Record entry := { e_file : bool; e_name : string; e_sha1 : string; e_time : option Z }.
(** rx.match, lines 94-100 *)
Definition of_interest (CURRENTS : bool) (name : string) : bool :=
  String.prefix "grid" name || String.prefix "h" name || (CURRENTS && String.prefix "u" name).
Definition touch (p : string) (t : Z) (f : files) : files :=
  fun q => if String.eqb q p then match f q with Some (b, _) => Some (b, t) | None => None end
           else f q.
Fixpoint verify_loop (place : string -> string) (l : list entry) (f : files)
  : files * option exn :=
  match l with
  | [] => (f, None)
  | e :: l =>
      match get_hash f (Path (place (e_name e))) "sha1" with
      | Err x => (f, Some x)
      | Ok sha1 =>
          if negb (sha1 =? e_sha1 e) then (f, Some OtherError)
          else match f (place (e_name e)), e_time e with
               | None, _ => (f, Some FileNotFoundError)
               | _, None => (f, Some TypeError)
               | _, Some t => verify_loop place l (touch (place (e_name e)) t f)
               end
      end
  end.
Definition verify_box_tpxo (CURRENTS : bool) (place : string -> string) (l : list entry)
  (f : files) : files * option exn :=
  verify_loop place (filter (fun e => e_file e && of_interest CURRENTS (e_name e)) l) f.
End BYTES.

(** * times *)
(** what strptime and dateutil find in a text: date, time of day, and the
    offset from UTC in seconds if there is one *)
Record fields := { year : Z; month : Z; day : Z; hour : Z; minute : Z; second : Z;
                   gmtoff : option Z }.

(** calendar.timegm (standard library): year, month, day, hour, minute and
    second only; datetime.date.toordinal *)
Definition leap (y : Z) : bool :=
  ((y mod 4 =? 0) && (negb (y mod 100 =? 0) || (y mod 400 =? 0)))%Z.
Definition before_year (y : Z) : Z :=
  ((y - 1) * 365 + (y - 1) / 4 - (y - 1) / 100 + (y - 1) / 400)%Z.
Definition before_month (y m : Z) : Z :=
  (nth (Z.to_nat m) [0; 0; 31; 59; 90; 120; 151; 181; 212; 243; 273; 304; 334] 0 +
   if (2 <? m) && leap y then 1 else 0)%Z.
Definition timegm (f : fields) : Z :=
  let days := (before_year (year f) + before_month (year f) (month f) + 1
               - 719163 + day f - 1)%Z in
  (((days * 24 + hour f) * 60 + minute f) * 60 + second f)%Z.

(** get_unix_time, lines 399-412: [zone] is the offset of the machine, used by
    datetime.timestamp for a time without one *)
Definition get_unix_time (strptime : string -> string -> option fields)
  (dateutil : string -> option fields) (zone : Z) (rstrip : string -> string)
  (time_string format : string) : option Z :=
  match strptime (rstrip time_string) format with
  | Some f => Some (timegm f)
  | None =>
      match dateutil (rstrip time_string) with
      | Some f => Some (timegm f - match gmtoff f with Some o => o | None => zone end)%Z
      | None => None
      end
  end.
