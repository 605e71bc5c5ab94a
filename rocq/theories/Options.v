(** Options: the command line of the demultiplexing daemon,
    /repo/utils/mctp-demux-daemon.c 570-578 and 593-637.

    getopt_long(3), atoi(3) and strcmp(3) are the C library's; [scan] and [atoi] say what
    glibc documents for the strings this program passes: options and operands may be mixed
    (the option string begins neither with + nor with -, POSIXLY_CORRECT is not set), "--"
    ends the options, long names may be abbreviated unambiguously, and an argument that is
    required is the rest of the word or the next word.  Strings are lists of bytes without
    the final zero. *)
From Verif Require Import Base Startup Daemon.
From Coq Require Import String Ascii.

Definition str : Type := list Z.
Definition bytes (s : string) : str := map (fun c => Z.of_N (N_of_ascii c)) (list_ascii_of_string s).

Inductive need := NoArg | MustArg | MayArg.

(** mctp-demux-daemon.c 570-578 options[]: name, has_arg, val *)
Definition longs : list (str * need * Z) := Eval vm_compute in
  [ (bytes "capture-binding", MustArg, 98);
    (bytes "capture-socket", MustArg, 115);
    (bytes "binding-linktype", MustArg, 66);
    (bytes "socket-linktype", MustArg, 83);
    (bytes "verbose", NoArg, 118);
    (bytes "eid", MustArg, 101) ].
(** mctp-demux-daemon.c 602: the option string "b:es::v" *)
Definition short (c : Z) : option need :=
  if c =? 98 then Some MustArg
  else if c =? 101 then Some NoArg
  else if c =? 115 then Some MayArg
  else if c =? 118 then Some NoArg
  else None.

(** What one call of getopt_long finds: an option with optarg, or '?'. *)
Inductive found := Opt (c : Z) (arg : option str) | Bad.

(** What one word of the command line is: an operand, "--", options complete in themselves,
    or options the last of which takes the next word. *)
Inductive word := Operand | Stop | Complete (l : list found) | Wants (l : list found) (c : Z).

(** A word of short options, after the '-'.  After a '?' nothing matters: main leaves. *)
Fixpoint cluster (s : str) : word :=
  match s with
  | [] => Complete []
  | c :: t =>
      match short c with
      | None => Complete [Bad]
      | Some NoArg =>
          match cluster t with
          | Complete l => Complete (Opt c None :: l)
          | Wants l d => Wants (Opt c None :: l) d
          | w => w
          end
      | Some MustArg => match t with [] => Wants [] c | _ => Complete [Opt c (Some t)] end
      | Some MayArg => match t with [] => Complete [Opt c None] | _ => Complete [Opt c (Some t)] end
      end
  end.

Fixpoint str_eqb (a b : str) : bool :=
  match a, b with
  | [], [] => true
  | x :: a, y :: b => (x =? y) && str_eqb a b
  | _, _ => false
  end.
Fixpoint prefixb (a b : str) : bool :=
  match a, b with
  | [], _ => true
  | x :: a, y :: b => (x =? y) && prefixb a b
  | _, [] => false
  end.
(** The name of a long option and the value after the first '='. *)
Fixpoint split_eq (s : str) : str * option str :=
  match s with
  | [] => ([], None)
  | c :: t => if c =? 61 then ([], Some t) else let (n, v) := split_eq t in (c :: n, v)
  end.
(** The long option meant by a name: the one so called, or else the only one it begins. *)
Definition lookup (n : str) : option (need * Z) :=
  match filter (fun o => str_eqb (fst (fst o)) n) longs with
  | (_, k, c) :: _ => Some (k, c)
  | [] =>
      match filter (fun o => prefixb n (fst (fst o))) longs with
      | [(_, k, c)] => Some (k, c)
      | _ => None
      end
  end.
Definition long (s : str) : word :=
  let (n, v) := split_eq s in
  match lookup n with
  | None => Complete [Bad]
  | Some (NoArg, c) => match v with None => Complete [Opt c None] | Some _ => Complete [Bad] end
  | Some (MustArg, c) => match v with None => Wants [] c | Some x => Complete [Opt c (Some x)] end
  | Some (MayArg, c) => Complete [Opt c v]
  end.
Definition classify (a : str) : word :=
  match a with
  | [] => Operand
  | c :: t =>
      if c =? 45 then
        match t with
        | [] => Operand
        | d :: s => if d =? 45 then match s with [] => Stop | _ => long s end else cluster t
        end
      else Operand
  end.
(** The options found by the calls of getopt_long, in order, and argv[optind..] after the
    last one. *)
Fixpoint scan (args : list str) : list found * list str :=
  match args with
  | [] => ([], [])
  | a :: rest =>
      match classify a with
      | Operand => let (f, ops) := scan rest in (f, a :: ops)
      | Stop => ([], rest)
      | Complete l => let (f, ops) := scan rest in (l ++ f, ops)
      | Wants l c =>
          match rest with
          | [] => (l ++ [Bad], [])
          | v :: rest' => let (f, ops) := scan rest' in (l ++ Opt c (Some v) :: f, ops)
          end
      end
  end.

(** atoi(3): (int) strtol(s, NULL, 10), where long has 64 bits and int 32. *)
Definition is_space (c : Z) : bool := (c =? 32) || ((9 <=? c) && (c <=? 13)).
Definition is_digit (c : Z) : bool := (48 <=? c) && (c <=? 57).
Fixpoint digits (s : str) (n : Z) : Z :=
  match s with
  | c :: t => if is_digit c then digits t (10 * n + (c - 48)) else n
  | [] => n
  end.
Fixpoint skip_space (s : str) : str :=
  match s with c :: t => if is_space c then skip_space t else s | [] => [] end.
Definition strtol (s : str) : Z :=
  match skip_space s with
  | c :: t =>
      let v := if c =? 45 then - digits t 0 else if c =? 43 then digits t 0 else digits (c :: t) 0 in
      Z.max (- 2 ^ 63) (Z.min (2 ^ 63 - 1) v)
  | [] => 0
  end.
Definition to_int (v : Z) : Z := (v + 2 ^ 31) mod 2 ^ 32 - 2 ^ 31.
Definition atoi (s : str) : Z := to_int (strtol s).

(** struct ctx as far as the options set it, mctp-demux-daemon.c 594-599 *)
Record settings := mkSet { s_eid : Z; s_cap_binding : option str; s_cap_socket : option str; s_verbose : bool }.
Definition defaults : settings := mkSet 8 None None false.
(** main leaves with EXIT_FAILURE, or dereferences NULL in atoi, or goes on with the
    settings and argv[optind..]. *)
Inductive parsed := Leaves | Crashes | Goes (s : settings) (ops : list str).
(** mctp-demux-daemon.c 601-630: the loop *)
Fixpoint apply_opts (s : settings) (l : list found) : option (option settings) :=
  match l with
  | [] => Some (Some s)
  | Bad :: _ => Some None
  | Opt c a :: t =>
      if c =? 98 then apply_opts (mkSet (s_eid s) a (s_cap_socket s) (s_verbose s)) t
      else if c =? 115 then apply_opts (mkSet (s_eid s) (s_cap_binding s) a (s_verbose s)) t
      else if (c =? 66) || (c =? 83) then apply_opts s t
      else if c =? 118 then apply_opts (mkSet (s_eid s) (s_cap_binding s) (s_cap_socket s) true) t
      else if c =? 101 then
        match a with
        | None => None
        | Some x => apply_opts (mkSet (atoi x) (s_cap_binding s) (s_cap_socket s) (s_verbose s)) t
        end
      else Some None
  end.
(** mctp-demux-daemon.c 601-636; [args] is argv after argv[0] *)
Definition parse (args : list str) : parsed :=
  let (f, ops) := scan args in
  match apply_opts defaults f with
  | None => Crashes
  | Some None => Leaves
  | Some (Some s) => match ops with [] => Leaves | _ => Goes s ops end
  end.

(** mctp-demux-daemon.c 254-287 bindings[], binding_lookup *)
Definition binding_lookup (name : str) : option kind :=
  if str_eqb name (bytes "null") then Some KNull
  else if str_eqb name (bytes "serial") then Some KSerial
  else if str_eqb name (bytes "astlpc") then Some KAstlpc
  else None.

(** The options main goes on with (632-675): the binding gets the EID as a mctp_eid_t, 8 bits
    (428-442 binding_init), its name and parameters are the operands. *)
Definition main_opts (s : settings) (name : str) (params : list str) : opts :=
  mkOpts (s_eid s mod 256) (s_cap_binding s) (s_cap_socket s) (binding_lookup name) params.
(** The whole program up to run_daemon's answers. *)
Definition program (args : list str) : Startup.prog Z :=
  match parse args with
  | Leaves => Startup.Ret 1
  | Crashes => Startup.bind (Startup.ask Startup.CFault) (fun f => match f : False with end)
  | Goes _ [] => Startup.Ret 1
  | Goes s (name :: params) => Startup.main (main_opts s name params)
  end.
(** The state run_daemon begins with: local_eid is an int. *)
Definition running (s : settings) : Daemon.ctx :=
  Daemon.start (s_eid s) (match s_cap_socket s with Some _ => true | None => false end).
