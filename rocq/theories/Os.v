(* What pywasm/wasi.py sees of its surroundings: path strings, the operating system, in-memory streams.

   The operating system is a function from the calls made so far (with their replies) and the next call to a reply;
   theorems quantify over all such functions, so nothing is assumed about files unless a theorem says so. Every call
   is recorded in the log, newest first. Flag values are those of Linux on x86-64. A socket object made by
   `socket.fromfd` for the duration of one call is the descriptor it was made from. *)
From Coq Require Import ZArith List Bool.
From Verif Require Import Py Syntax Store.
Import ListNotations.
Open Scope Z_scope.

(* ---- str: lists of code points ---- *)
Definition c_slash : Z := 47.
Definition c_dot : Z := 46.
(* `s.startswith(p)` *)
Fixpoint starts_with (s p : name) : bool :=
  match p, s with
  | [], _ => true
  | y :: p', x :: s' => (x =? y) && starts_with s' p'
  | _ :: _, [] => false
  end.
(* `s.endswith('/')` *)
Definition ends_slash (s : name) : bool := match rev s with x :: _ => x =? c_slash | [] => false end.
(* `s.split('/')`: never empty *)
Fixpoint split_slash (s : name) : list name :=
  match s with
  | [] => [[]]
  | x :: s' =>
    if x =? c_slash then [] :: split_slash s'
    else match split_slash s' with w :: ws => (x :: w) :: ws | [] => [[x]] end
  end.
(* `'/'.join(l)` *)
Fixpoint join_slash (l : list name) : name :=
  match l with
  | [] => []
  | [w] => w
  | w :: l' => w ++ c_slash :: join_slash l'
  end.
(* `a < b` on str *)
Fixpoint str_ltb (a b : name) : bool :=
  match a, b with
  | _, [] => false
  | [], _ :: _ => true
  | x :: a', y :: b' => (x <? y) || ((x =? y) && str_ltb a' b')
  end.
(* `s.encode()`: lone surrogates raise (UnicodeEncodeError, not distinguished here from UnicodeDecodeError). A Python
   string holds no numbers below 0 or above 0x10ffff; here they raise, too. *)
Definition encode_char (c : Z) : res (list Z) :=
  if (c <? 0) || (0x10ffff <? c) then Err EUnicode
  else if c <? 0x80 then Ok [c]
  else if c <? 0x800 then Ok [0xc0 + c / 64; 0x80 + c mod 64]
  else if (0xd800 <=? c) && (c <? 0xe000) then Err EUnicode
  else if c <? 0x10000 then Ok [0xe0 + c / 4096; 0x80 + c / 64 mod 64; 0x80 + c mod 64]
  else Ok [0xf0 + c / 262144; 0x80 + c / 4096 mod 64; 0x80 + c / 64 mod 64; 0x80 + c mod 64].
Fixpoint utf8_encode (s : name) : res (list Z) :=
  match s with
  | [] => Ok []
  | c :: s' => let? a := encode_char c in let? b := utf8_encode s' in Ok (a ++ b)
  end.

(* ---- os.path on POSIX ---- *)
(* `os.path.join(a, b)` *)
Definition path_join (a b : name) : name :=
  if starts_with b [c_slash] then b
  else if match a with [] => true | _ => ends_slash a end then a ++ b
  else a ++ c_slash :: b.
(* one turn of the loop of `os.path.normpath`; the components kept so far, last one first *)
Definition norm_comp (rooted : bool) (acc : list name) (c : name) : list name :=
  if name_eqb c [] || name_eqb c [c_dot] then acc
  else if negb (name_eqb c [c_dot; c_dot])
       || (negb rooted && match acc with [] => true | _ => false end)
       || match acc with w :: _ => name_eqb w [c_dot; c_dot] | [] => false end
  then c :: acc
  else match acc with _ :: acc' => acc' | [] => [] end.
(* `os.path.normpath(p)`: exactly two leading slashes are kept *)
Definition normpath (p : name) : name :=
  let slashes := if starts_with p [c_slash] then
                   if starts_with p [c_slash; c_slash] && negb (starts_with p [c_slash; c_slash; c_slash])
                   then [c_slash; c_slash] else [c_slash]
                 else [] in
  let comps := rev (fold_left (norm_comp (negb (name_eqb slashes []))) (split_slash p) []) in
  let q := slashes ++ join_slash comps in
  match q with [] => [c_dot] | _ => q end.
(* `os.path.abspath(p)` with the working directory [cwd] *)
Definition abspath (cwd p : name) : name :=
  normpath (if starts_with p [c_slash] then p else path_join cwd p).

(* ---- calls ---- *)
Definition O_RDONLY : Z := 0.
Definition O_WRONLY : Z := 1.
Definition O_RDWR : Z := 2.
Definition O_CREAT : Z := 64.
Definition O_EXCL : Z := 128.
Definition O_TRUNC : Z := 512.
Definition O_APPEND : Z := 1024.
Definition O_NONBLOCK : Z := 2048.
Definition O_DIRECTORY : Z := 65536.
Definition O_NOFOLLOW : Z := 131072.
Definition SEEK_SET : Z := 0.
Definition SEEK_CUR : Z := 1.
Definition SEEK_END : Z := 2.

(* os.stat_result *)
Record statinfo : Set := mkstat {
  st_mode : Z; st_ino : Z; st_nlink : Z; st_size : Z; st_atime_ns : Z; st_mtime_ns : Z; st_ctime_ns : Z
}.
(* the exceptions the code tells apart; any other exception is [OEother] *)
Inductive oserr : Set :=
| OEexist | OEnoent | OEisdir | OEnotdir | OEperm | OEpipe
| OEerrno (n : Z)
| OEother (e : exn).
Inductive oscall : Set :=
| OsOpen (path : name) (flags mode : Z) (dir : option Z)
| OsClose (h : Z)
| OsRead (h n : Z)
| OsPread (h n off : Z)
| OsWrite (h : Z) (d : list Z)
| OsPwrite (h : Z) (d : list Z) (off : Z)
| OsLseek (h off whence : Z)
| OsStatFd (h : Z)                                   (* os.stat(fd), os.fstat(fd) *)
| OsStat (path : name) (dir : option Z) (follow : bool)
| OsIsdir (h : Z)                                    (* os.path.isdir(fd) *)
| OsIsfile (h : Z)
| OsTruncate (h n : Z)
| OsUtimeFd (h atim mtim : Z)
| OsUtime (path : name) (dir : Z) (follow : bool) (atim mtim : Z)
| OsFsync (h : Z)
| OsSetfl (h flags : Z)
| OsListdir (h : Z)
| OsMkdir (path : name) (dir : Z)
| OsLink (src dst : name) (sdir ddir : Z) (follow : bool)
| OsReadlink (path : name) (dir : Z)
| OsRmdir (path : name) (dir : Z)
| OsRename (src dst : name) (sdir ddir : Z)
| OsSymlink (src dst : name) (dir : Z)
| OsUnlink (path : name) (dir : Z)
| OsTime (clock : Z)                                 (* time.time_ns() and the other clocks *)
| OsRandom (n : Z)
| OsSelect (rd wr : list Z) (timeout_ns : Z)
| OsAccept (h : Z) (nonblock : bool)
| OsRecv (h n flags : Z)
| OsSend (h : Z) (d : list Z)
| OsShutdown (h how : Z).
Inductive reply : Set :=
| RUnit
| RInt (z : Z)
| RBool (b : bool)
| RBytes (d : list Z)
| RName (s : name)
| RNames (l : list name)
| RStat (i : statinfo)
| RReady (rd wr : list Z)
| RFail (e : oserr).
Definition event : Set := (oscall * reply)%type.
Definition os : Type := list event -> oscall -> reply.

(* ---- io.BytesIO ---- *)
Record bytesio : Set := mkbio { bio_data : list Z; bio_pos : Z }.
Definition bio_read (b : bytesio) (n : Z) : list Z * bytesio :=
  let d := firstn (Z.to_nat n) (skipn (Z.to_nat (bio_pos b)) (bio_data b)) in
  (d, mkbio (bio_data b) (bio_pos b + len d)).
(* writing overwrites from the position on, after zero bytes if the position is beyond the end *)
Definition bio_write (b : bytesio) (d : list Z) : Z * bytesio :=
  match d with
  | [] => (0, b)
  | _ =>
    let base := bio_data b ++ zeros (bio_pos b - len (bio_data b)) in
    (len d, mkbio (firstn (Z.to_nat (bio_pos b)) base ++ d ++ skipn (Z.to_nat (bio_pos b + len d)) base)
              (bio_pos b + len d))
  end.
