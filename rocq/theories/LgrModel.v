(** Loggers: src/Logger.cc, include/fimex/Logger.h:43-190, src/Log4cppLogger.cc.  Objects have addresses, numbers that
    are given once; what is deleted is [None], and its use is [UB].  One thread; the mutex is a simple lock, which
    hangs when the thread that has it asks for it again (include/fimex/MutexLock.h:40-110).  Memory suffices.  The
    second mutex, of log4cpp, is held by leaf functions only and is left out, as are layouts and appenders. *)
From Coq Require Import ZArith NArith PeanoNat String Ascii List Bool DecimalString.
From Verif Require Import Base.
Import ListNotations.
Local Open Scope string_scope.
Local Open Scope list_scope.
Local Open Scope nat_scope.

(** Log2StderrClass, Log4cppClass, and a class of a client such as PythonLoggingClass
    (modules/python/pyfimex0_logging.cc:140-160): all loggerFor remember the logger and make a new object *)
Inductive kind := Stderr | Log4cpp | Other (n : nat).
(** Logger::LogClass, Logger.h:99-102 *)
Inductive log_class := LOG2STDERR | LOG4CPP.

(** Logger::LogLevel, Logger.h:60-67; an int of the C interface may be any number (src/c_fimex.cc:535-539) *)
Definition OFF : Z := 1000.
Definition FATAL : Z := 900.
Definition ERROR : Z := 800.
Definition WARN : Z := 700.
Definition INFO : Z := 600.
Definition DEBUG : Z := 500.

(** log4cpp::Priority *)
Definition NOTSET : Z := 800.
(** logLevel2cppPriority, Log4cppLogger.cc:40-52 *)
Definition priority (level : Z) : Z :=
  if (level =? FATAL)%Z then 0%Z
  else if (level =? ERROR)%Z then 300%Z
  else if (level =? WARN)%Z then 400%Z
  else if (level =? INFO)%Z then 600%Z
  else if (level =? DEBUG)%Z then 700%Z
  else NOTSET.

(** the text in front, Logger.cc:59-67 *)
Definition level_name (level : Z) : string :=
  if (level =? FATAL)%Z then "FATAL: "
  else if (level =? ERROR)%Z then "ERROR: "
  else if (level =? WARN)%Z then "WARN: "
  else if (level =? INFO)%Z then "INFO: "
  else if (level =? DEBUG)%Z then "DEBUG: "
  else if (level =? OFF)%Z then "OFF"
  else "LOG".
Definition show (n : N) : string := NilZero.string_of_uint (N.to_uint n).

(** what a program sees: answers, and messages that arrive at a class *)
Inductive event := Answer (b : bool) | Written (k : kind) (name : string) (level : Z) (text : string).

Record logger := mkL { l_name : string; l_impl : option nat }.
Record world := mkW {
  w_loggers : nat -> option logger; w_next : nat;
  w_classes : nat -> option (kind * list nat); w_cnext : nat;
  w_impls : nat -> option (kind * string); w_inext : nat;
  w_current : option nat;        (* loggerClass_ *)
  w_level : Z;                   (* defaultLL *)
  w_prio : Z;                    (* priority of the category fimex of log4cpp *)
  w_locked : bool;               (* loggerMutex *)
  w_out : list event }.

Definition fset {A} (f : nat -> option A) (i : nat) (x : option A) : nat -> option A :=
  fun j => if j =? i then x else f j.
Definition with_loggers (w : world) f := mkW f (w_next w) (w_classes w) (w_cnext w) (w_impls w) (w_inext w) (w_current w) (w_level w) (w_prio w) (w_locked w) (w_out w).
Definition with_classes (w : world) f := mkW (w_loggers w) (w_next w) f (w_cnext w) (w_impls w) (w_inext w) (w_current w) (w_level w) (w_prio w) (w_locked w) (w_out w).
Definition with_impls (w : world) f := mkW (w_loggers w) (w_next w) (w_classes w) (w_cnext w) f (w_inext w) (w_current w) (w_level w) (w_prio w) (w_locked w) (w_out w).
Definition with_current (w : world) c := mkW (w_loggers w) (w_next w) (w_classes w) (w_cnext w) (w_impls w) (w_inext w) c (w_level w) (w_prio w) (w_locked w) (w_out w).
Definition with_prio (w : world) p := mkW (w_loggers w) (w_next w) (w_classes w) (w_cnext w) (w_impls w) (w_inext w) (w_current w) (w_level w) p (w_locked w) (w_out w).
Definition with_level (w : world) z := mkW (w_loggers w) (w_next w) (w_classes w) (w_cnext w) (w_impls w) (w_inext w) (w_current w) z (w_prio w) (w_locked w) (w_out w).
Definition with_locked (w : world) b := mkW (w_loggers w) (w_next w) (w_classes w) (w_cnext w) (w_impls w) (w_inext w) (w_current w) (w_level w) (w_prio w) b (w_out w).
Definition emit (w : world) (l : list event) := mkW (w_loggers w) (w_next w) (w_classes w) (w_cnext w) (w_impls w) (w_inext w) (w_current w) (w_level w) (w_prio w) (w_locked w) (w_out w ++ l).

Definition lock (w : world) : outcome world := if w_locked w then Hang else Ok (with_locked w true).
Definition unlock (w : world) : outcome world := if w_locked w then Ok (with_locked w false) else UB.

Section Log.
(** HAVE_LOG4CPP; the priority of the root category of log4cpp; what the loggers of other classes answer *)
Variable have : bool.
Variable root : Z.
Variable other : nat -> string -> Z -> bool.

(** log4cpp: a category without priority has that of its parent, and all names below "fimex." have the parent fimex;
    Category::getChainedPriority *)
Definition below_fimex (name : string) : bool := prefix "fimex." name || (name =? "fimex")%string.
Definition chained (prio : Z) (name : string) : Z :=
  if below_fimex name then if (NOTSET <=? prio)%Z then root else prio else root.

(** Log4cppClass::configureMinimal, Log4cppLogger.cc:89-102, without the appender *)
Definition configure (level prio : Z) : Z :=
  if (chained prio "fimex" <? priority level)%Z then priority level else prio.

(** isEnabledFor of the objects: Logger.cc:52-55; Log4cppLogger.cc:65-70 with Category::isPriorityEnabled *)
Definition enabled (k : kind) (name : string) (deflt prio level : Z) : bool :=
  match k with
  | Stderr => (deflt <=? level)%Z
  | Log4cpp => (priority level <=? chained prio name)%Z
  | Other n => other n name level
  end.
(** log of the objects: Logger.cc:57-69; Log4cppLogger.cc:72-80, where the stream drops what is not enabled *)
Definition written (k : kind) (name : string) (deflt prio level : Z) (message file : string) (line : N) : list event :=
  let text := (message ++ " in " ++ file ++ " at line " ++ show line)%string in
  match k with
  | Stderr => [Written k name level (level_name level ++ text)%string]
  | Log4cpp => if enabled k name deflt prio level then [Written k name level text] else []
  | Other _ => [Written k name level text]
  end.

(** remember and forget, Logger.cc:143-153 *)
Definition remember (c l : nat) (w : world) : outcome world :=
  do w <- lock w;
  do (k, ls) <- rd (w_classes w c);
  unlock (with_classes w (fset (w_classes w) c (Some (k, ls ++ [l])))).
Definition forget (c l : nat) (w : world) : outcome world :=
  do w <- lock w;
  do (k, ls) <- rd (w_classes w c);
  unlock (with_classes w (fset (w_classes w) c (Some (k, filter (fun x => negb (x =? l)) ls)))).
(** loggerFor, Logger.cc:76-80, Log4cppLogger.cc:82-86 *)
Definition logger_for (c l : nat) (name : string) (w : world) : outcome (nat * world) :=
  do (k, _) <- rd (w_classes w c);
  do w <- remember c l w;
  let i := w_inext w in
  Ok (i, mkW (w_loggers w) (w_next w) (w_classes w) (w_cnext w) (fset (w_impls w) i (Some (k, name))) (S i)
           (w_current w) (w_level w) (w_prio w) (w_locked w) (w_out w)).

Section Rec.
(** setClass(LoggerClass* ), which getLoggerClass may call while a class is deleted *)
Variable set_ptr : option kind -> world -> outcome world.

(** setClass(LogClass), Logger.cc:111-121 *)
Definition set_log (lc : log_class) (w : world) : outcome (bool * world) :=
  match lc with
  | LOG4CPP =>
      if have then do w <- set_ptr (Some Log4cpp) (with_prio w (configure (w_level w) (w_prio w))); Ok (true, w)
      else do w <- set_ptr (Some Stderr) w; Ok (false, w)
  | LOG2STDERR => do w <- set_ptr (Some Stderr) w; Ok (true, w)
  end.
(** getLoggerClass, Logger.cc:123-130 *)
Definition get_class (w : world) : outcome (nat * world) :=
  match w_current w with
  | Some c => Ok (c, w)
  | None => do (_, w) <- set_log LOG4CPP w; do c <- rd (w_current w); Ok (c, w)
  end.
(** Logger::reset, Logger.cc:194-205 *)
Definition reset (l : nat) (w : world) : outcome world :=
  do w <- lock w;
  do lg <- rd (w_loggers w l);
  match l_impl lg with
  | None => unlock w
  | Some _ =>
      do w <- unlock w;
      do (c, w) <- get_class w;
      do w <- forget c l w;
      do w <- lock w;
      do lg <- rd (w_loggers w l);
      do w <- match l_impl lg with
              | None => Ok w
              | Some i => do _ <- rd (w_impls w i); Ok (with_impls w (fset (w_impls w) i None))
              end;
      unlock (with_loggers w (fset (w_loggers w) l (Some (mkL (l_name lg) None))))
  end.
(** LoggerClass::~LoggerClass and LoggerClass::reset, Logger.cc:138-141, 155-164 *)
Definition delete_class (c : nat) (w : world) : outcome world :=
  do w <- lock w;
  do (k, ls) <- rd (w_classes w c);
  do w <- unlock (with_classes w (fset (w_classes w) c (Some (k, []))));
  do w <- ofold (fun w l => reset l w) ls w;
  Ok (with_classes w (fset (w_classes w) c None)).
End Rec.

(** setClass(LoggerClass* ), Logger.cc:100-109, with the new class made by the caller; the fuel bounds the calls
    within calls *)
Fixpoint set_ptr (fuel : nat) (lc : option kind) (w : world) : outcome world :=
  match fuel with
  | O => Hang
  | S f =>
      let '(p, w) := match lc with
                     | None => (None, w)
                     | Some k => (Some (w_cnext w),
                                  mkW (w_loggers w) (w_next w) (fset (w_classes w) (w_cnext w) (Some (k, []))) (S (w_cnext w))
                                    (w_impls w) (w_inext w) (w_current w) (w_level w) (w_prio w) (w_locked w) (w_out w))
                     end in
      do w <- lock w;
      let old := w_current w in
      do w <- unlock (with_current w p);
      match old with None => Ok w | Some o => delete_class (set_ptr f) o w end
  end.

Definition ptr := set_ptr 2.

(** Logger::impl, Logger.cc:179-192 *)
Definition impl (l : nat) (w : world) : outcome (option nat * world) :=
  do w <- lock w;
  do lg <- rd (w_loggers w l);
  match l_impl lg with
  | Some i => do w <- unlock w; Ok (Some i, w)
  | None =>
      do w <- unlock w;
      do (c, w) <- get_class ptr w;
      do (i, w) <- logger_for c l (l_name lg) w;
      do w <- lock w;
      do lg <- rd (w_loggers w l);
      let w := match l_impl lg with
               | Some _ => w
               | None => with_loggers w (fset (w_loggers w) l (Some (mkL (l_name lg) (Some i))))
               end in
      do lg <- rd (w_loggers w l);
      do w <- unlock w; Ok (l_impl lg, w)
  end.
(** Logger::isEnabledFor, Logger.cc:207-213 *)
Definition is_enabled (l : nat) (level : Z) (w : world) : outcome (bool * world) :=
  do (p, w) <- impl l w;
  match p with
  | Some i => do (k, name) <- rd (w_impls w i); Ok (enabled k name (w_level w) (w_prio w) level, w)
  | None => Ok (false, w)
  end.
(** Logger::forcedLog, Logger.cc:215-219 *)
Definition forced (l : nat) (level : Z) (message file : string) (line : N) (w : world) : outcome world :=
  do (p, w) <- impl l w;
  match p with
  | Some i => do (k, name) <- rd (w_impls w i); Ok (emit w (written k name (w_level w) (w_prio w) level message file line))
  | None => Ok w
  end.

(** what a program may do *)
Inductive op :=
  | New (name : string)                                       (* getLogger, Logger.cc:223-226 *)
  | Drop (l : nat)                                            (* ~Logger, Logger.cc:174-177 *)
  | Enabled (l : nat) (level : Z)
  | Log (l : nat) (level : Z) (message file : string) (line : N)   (* LOG4FIMEX, Logger.h:170-178 *)
  | Forced (l : nat) (level : Z) (message file : string) (line : N)
  | Reset (l : nat)
  | SetClass (lc : log_class)
  | SetPtr (k : option kind)
  | SetLevel (level : Z)
  | CLevel (level : Z).                                       (* mifi_set_default_log_level, c_fimex.cc:535-539 *)

Definition step (w : world) (o : op) : outcome world :=
  match o with
  | New name =>
      Ok (mkW (fset (w_loggers w) (w_next w) (Some (mkL name None))) (S (w_next w)) (w_classes w) (w_cnext w)
            (w_impls w) (w_inext w) (w_current w) (w_level w) (w_prio w) (w_locked w) (w_out w))
  | Drop l => do w <- reset ptr l w; Ok (with_loggers w (fset (w_loggers w) l None))
  | Enabled l level => do (b, w) <- is_enabled l level w; Ok (emit w [Answer b])
  | Log l level message file line =>
      do (b, w) <- is_enabled l level w; if b : bool then forced l level message file line w else Ok w
  | Forced l level message file line => forced l level message file line w
  | Reset l => reset ptr l w
  | SetClass lc => do (b, w) <- set_log ptr lc w; Ok (emit w [Answer b])
  | SetPtr k => do w <- ptr k w; Ok (emit w [Answer match k with Some _ => true | None => false end])
  | SetLevel level => Ok (with_level w level)
  | CLevel level => do (_, w) <- set_log ptr LOG4CPP (with_level w level); Ok w
  end.
Definition run_ops (ops : list op) (w : world) : outcome world := ofold step ops w.

(** a program at its start: defaultLL, Logger.cc:84; a category of log4cpp has no priority of its own *)
Definition start : world :=
  mkW (fun _ => None) 0 (fun _ => None) 0 (fun _ => None) 0 None WARN NOTSET false [].
End Log.
