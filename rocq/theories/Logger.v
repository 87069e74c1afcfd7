(** Logger.v: the package logger. The text of a message (fmt.Sprint, logger/logger.go:29-31) and the time on a printed line are not modelled: a message is
    the bytes it is made of, and a printed line is its level, its caller and its message. A logger set up by the application is a number. *)
From Verif Require Import Base Itoa.
From Coq Require Import String List.
Import ListNotations.

(** strings.Split for a separator of one byte, as used at logger/default.go:84 and logger/logger.go:44: the parts between separators, one part more than
    there are separators. *)
Fixpoint split_on (sep : byte) (l : bytes) : list bytes :=
  match l with
  | [] => [[]]
  | b :: r => if Byte.eqb b sep then [] :: split_on sep r else match split_on sep r with p :: ps => (b :: p) :: ps | [] => [[b]] end
  end.
Fixpoint starts_with (p l : bytes) : bool :=
  match p, l with
  | [], _ => true
  | x :: p', y :: l' => Byte.eqb x y && starts_with p' l'
  | _ :: _, [] => false
  end.
(** strings.Contains *)
Fixpoint contains (p l : bytes) : bool :=
  starts_with p l || match l with [] => false | _ :: r => contains p r end.

(** logger/default.go:10-12: None is the nil slice of a fresh logger. *)
Definition namespaces := option (list bytes).
Definition all_name : bytes := str "all".
(** logger/default.go:49-53 ensureNamespaces *)
Definition ensure_namespaces (n : namespaces) : list bytes := match n with None => [all_name] | Some l => l end.
(** logger/default.go:32-45 shouldLog, and the namespaces it leaves *)
Definition should_log (n : namespaces) (caller : bytes) : bool * namespaces :=
  let l := ensure_namespaces n in
  (existsb (fun ns => bytes_eqb ns all_name || contains ns caller) l, Some l).

Inductive level : Type := LDebug | LInfo | LWarning | LError.
(** What comes out: a line on the standard log, or a call of the application's logger. *)
Inductive outcome : Type :=
| Printed (lv : level) (caller msg : bytes)
| Handed (id : N) (lv : level) (caller msg : bytes)
| HandedSettings (id : N) (settings : bytes).

(** logger/logger.go:11: the variable Logger, nil at first. *)
Inductive shared : Type := Unset | Default (n : namespaces) | Custom (id : N).
(** logger/logger.go:34-38 ensureLogger *)
Definition ensure_logger (s : shared) : shared := match s with Unset => Default None | _ => s end.

(** logger/default.go:16-28 and 56-73: log, Debug, Info, Warning, Error of the default logger *)
Definition default_call (n : namespaces) (lv : level) (caller msg : bytes) : namespaces * list outcome :=
  match lv with
  | LDebug | LInfo => (n, [])
  | LWarning | LError => let '(b, n') := should_log n caller in (n', if b then [Printed lv caller msg] else [])
  end.

(** logger/logger.go:41-52 getCaller, of the path and the line that runtime.Caller(2) gives: those of the statement that called Debug, Info, Warning or
    Error. strings.Split with a separator never gives no part, so the name "<unkn>" does not occur. *)
Definition get_caller (path : bytes) (line : Z) : bytes :=
  match rev (split_on x2f path) with file :: _ => file | [] => str "<unkn>" end ++ x3a :: itoa line.

(** The calls of the package. [LSetup (Some id)] hands over a logger, [LSetup None] a pointer to a nil interface. (Setup(nil) panics before it does
    anything, and is not modelled.) *)
Inductive lcall : Type := LSetup (l : option N) | LConfigure (settings : bytes) | LLog (lv : level) (path : bytes) (line : Z) (msg : bytes).
(** logger/logger.go:24-26 Setup, 59-80 Debug, Info, Warning, Error, 85-88 Configure; logger/default.go:83-85 Configure *)
Definition lstep (c : lcall) (s : shared) : shared * list outcome :=
  match c with
  | LSetup None => (Unset, [])
  | LSetup (Some id) => (Custom id, [])
  | LConfigure t =>
      match ensure_logger s with
      | Custom id => (Custom id, [HandedSettings id t])
      | _ => (Default (Some (split_on x2c t)), [])
      end
  | LLog lv path line msg =>
      match ensure_logger s with
      | Custom id => (Custom id, [Handed id lv (get_caller path line) msg])
      | Default n => let '(n', o) := default_call n lv (get_caller path line) msg in (Default n', o)
      | Unset => (Unset, [])
      end
  end.
Fixpoint lrun (l : list lcall) (s : shared) : shared * list outcome :=
  match l with
  | [] => (s, [])
  | c :: r => let '(s1, o1) := lstep c s in let '(s2, o2) := lrun r s1 in (s2, o1 ++ o2)
  end.
