(** Model of Patro/Common/Platform.py, Patro/Config/ConfigInstall.py and Patro/Common/Logging/Logging.py, from the lines of the files of the
    system and from the YAML value of the configuration on.  RuntimeError is modelled by NotImplementedError, which is one of its
    sub-classes. *)
From Coq Require Import String Ascii List Bool Arith ZArith.
From Verif Require Import Base ModelFormula ModelFiles ModelYaml.
From Verif Require ModelXml.
Import ListNotations.
Local Open Scope result_scope.

(** ** Platform.py *)
(** 36-40: PlatformType *)
Inductive platform_type := Linux | Windows | OSX.
(** p in s, for two texts *)
Definition is_in (p s : text) : bool := match ModelFormula.find p s with Some _ => true | None => false end.
(** 73-83: _get_os *)
Definition get_os (os_name sys_platform : text) : result platform_type :=
  if text_eqb os_name (lit "nt") then Ok Windows else if text_eqb sys_platform (lit "linux") then Ok Linux else Raise NotImplementedError.
(** line.split(':')[1] *)
Definition second_field (line : text) : result text :=
  match split ":"%char line with _ :: f :: _ => Ok f | _ => Raise IndexError end.
Fixpoint first_line (key : text) (lines : list text) : option text :=
  match lines with [] => None | l :: lines => if is_in key l then Some l else first_line key lines end.

Section Information.
(** The lines of /proc/cpuinfo and /proc/meminfo, each with its end of line *)
Variables cpuinfo meminfo : list text.
(** int(os.getenv('NUMBER_OF_PROCESSORS')) *)
Variable number_of_processors : result Z.
(** int(1000 * float(s)), with the rounding of the floats *)
Variable khz : text -> result Z.

(** 87-97: _get_cpu; None when there is no line.  strip().rstrip() is strip() *)
Definition get_cpu (os : platform_type) : result (option text) :=
  match os with
  | Linux => match first_line (lit "model name") cpuinfo with Some l => s <- second_field l ;; Ok (Some (ModelXml.strip s)) | None => Ok None end
  | Windows => Raise NotImplementedError
  | OSX => Ok None
  end.
(** 101-112: _get_number_of_cores *)
Definition get_number_of_cores (os : platform_type) : result (option Z) :=
  match os with
  | Linux => Ok (Some (Z.of_nat (length (filter (is_in (lit "processor")) cpuinfo))))
  | Windows => n <- number_of_processors ;; Ok (Some n)
  | OSX => Ok None
  end.
(** 116-126: _get_cpu_khz *)
Definition get_cpu_khz (os : platform_type) : result (option Z) :=
  match os with
  | Linux => match first_line (lit "cpu MHz") cpuinfo with Some l => s <- second_field l ;; k <- khz s ;; Ok (Some k) | None => Ok None end
  | Windows => Raise NotImplementedError
  | OSX => Ok None
  end.
(** 130-140: _get_memory_size_kb; s[:-3] *)
Definition get_memory_size_kb (os : platform_type) : result (option Z) :=
  match os with
  | Linux =>
      match first_line (lit "MemTotal") meminfo with
      | Some l => s <- second_field l ;; n <- ModelXml.int_parse (firstn (length s - 3) s) ;; Ok (Some n)
      | None => Ok None
      end
  | Windows => Raise NotImplementedError
  | OSX => Ok None
  end.
(** 62-69: int(n / float(k)); the quotient of None is an error.  Simplified: the quotient is exact, as it is for all sizes below 2^43. *)
Definition quotient (n : option Z) (k : Z) : result Z := match n with Some n => Ok (Z.quot n k) | None => Raise TypeError end.
Record platform := Platform_ { pf_os : platform_type; pf_cpu : option text; pf_cores : option Z; pf_khz : option Z; pf_mhz : Z; pf_kb : option Z; pf_mb : Z }.
(** 50-69: __init__; the attributes which are those of the module platform are left out *)
Definition new_platform (os_name sys_platform : text) : result platform :=
  os <- get_os os_name sys_platform ;;
  cpu <- get_cpu os ;;
  cores <- get_number_of_cores os ;;
  k <- get_cpu_khz os ;;
  k' <- get_cpu_khz os ;;
  mhz <- quotient k' 1000 ;;
  kb <- get_memory_size_kb os ;;
  mb <- quotient kb 1024 ;;
  Ok (Platform_ os cpu cores k mhz kb mb).
End Information.

(** ** ConfigInstall.py *)
(** 37-62: OsFactory; on another platform the attribute _name does not exist *)
Definition os_factory (sys_platform : text) : option platform_type :=
  if starts (lit "linux") sys_platform then Some Linux
  else if starts (lit "win") sys_platform then Some Windows
  else if starts (lit "darwin") sys_platform then Some OSX
  else None.
Definition on (os : option platform_type) (k : platform_type) : result bool :=
  match os with
  | None => Raise AttributeError
  | Some o => Ok (match o, k with Linux, Linux | Windows, Windows | OSX, OSX => true | _, _ => false end)
  end.
(** 85-87: Logging.find, in the directory of the configuration *)
Definition logging_find (here : list text) (root : node) (config_directory config_file : text) : result text :=
  ModelFiles.find here root (Chars false config_file) (Several [Chars false config_directory]).

(** ** Logging.py *)
Section Logging.
Variable number : Type.
Notation yaml := (ModelYaml.yaml number).
(** v[k] = x *)
Fixpoint set_key (l : list (ykey * yaml)) (k : ykey) (x : yaml) : list (ykey * yaml) :=
  match l with
  | [] => [(k, x)]
  | (k', v) :: l => if key_eqb k' k then (k', x) :: l else (k', v) :: set_key l k x
  end.
Definition set_item (v : yaml) (k : string) (x : yaml) : result yaml :=
  match v with YMap l => Ok (YMap (set_key l (KText (lit k)) x)) | _ => Raise TypeError end.
(** v[a][b][c] = x: the inner values are modified in place *)
Definition set_inner (v : yaml) (a b c : string) (x : yaml) : result yaml :=
  u <- item v a ;; w <- item u b ;; w' <- set_item w c x ;; u' <- set_item u b w' ;; set_item v a u'.
Definition inner (v : yaml) (a b c : string) : result yaml := u <- item v a ;; w <- item u b ;; item w c.

Definition esc : text := [ascii_of_nat 27].
(** 36-50: what setup_logging makes of the YAML value before logging.config.dictConfig *)
Definition prepare (os : option platform_type) (config : yaml) : result yaml :=
  linux <- on os Linux ;;
  config <- (if linux : bool then
    f <- inner config "formatters" "ansi" "format" ;;
    match f with
    | YText t => set_inner config "formatters" "ansi" "format" (YText (replace (lit "<ESC>") esc t))
    | _ => Raise AttributeError
    end
  else Ok config) ;;
  windows <- on os Windows ;;
  set_inner config "handlers" "console" "formatter" (YText (lit (if windows : bool then "simple" else "ansi"))).

(** 52-57: the level of the logger.  getattr(logging, name, None); setLevel takes an int or the name of a level *)
Inductive attribute := AInt (z : Z) | AText (t : text) | AOther.
Variable logging_module : text -> option attribute.
Variable level_names : text -> option Z.
Definition set_level (a : option attribute) : result Z :=
  match a with
  | Some (AInt z) => Ok z
  | Some (AText t) => match level_names t with Some z => Ok z | None => Raise ValueError end
  | Some AOther | None => Raise TypeError
  end.
(** The level after the call, [default] being that of the configuration *)
Definition logger_level (environ : option text) (default : Z) : result Z :=
  match environ with Some name => set_level (logging_module name) | None => Ok default end.
(** 32-57: setup_logging: the configuration which is given to dictConfig, and the level; load gives the YAML value of a file *)
Definition setup_logging (sys_platform : text) (here : list text) (root : node) (config_directory config_file : text) (load : text -> result yaml)
    (dict_config : yaml -> result unit) (environ : option text) (default : Z) : result (yaml * Z) :=
  file <- logging_find here root config_directory config_file ;;
  config <- load file ;;
  config <- prepare (os_factory sys_platform) config ;;
  _ <- dict_config config ;;
  level <- logger_level environ default ;;
  Ok (config, level).
End Logging.
Arguments set_key {number} l k x. Arguments set_item {number} v k x. Arguments set_inner {number} v a b c x. Arguments inner {number} v a b c.
Arguments prepare {number} os config.
