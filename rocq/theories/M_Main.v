(** * cmd/bbstool/main.go: main with package flag of Go 1.14

    The command line is os.Args without the name of the program.  What is printed about
    a refused command line and the exit status 2 are the one result [Exit2]. *)
From Verif Require Import M_Base M_Text M_Sys M_BbsTool.
Open Scope N_scope.

(** cmd/bbstool/main.go:16-19 init: the flags and their default values *)
Definition no_flags : tool_env := ToolEnv (str "pttbbs") (str "/home/bbs") [].
(** flag.StringVar: the value is stored; None for a flag that is not defined *)
Definition set_flag (e : tool_env) (name value : bytes) : option tool_env :=
  if beqb name (str "driver") then Some (ToolEnv value (te_home e) (te_args e))
  else if beqb name (str "bbshome") then Some (ToolEnv (te_driver e) value (te_args e))
  else None.

(** flag.go, FlagSet.parseOne: the loop from 1 that looks for the equals sign in [name]:
    the part before it and the part after it *)
Fixpoint cut_rest (rest before : bytes) : bytes * option bytes :=
  match rest with
  | [] => (rev before, None)
  | c :: rest' => if Byte.eqb c "=" then (rev before, Some rest') else cut_rest rest' (c :: before)
  end.
Definition cut_value (name : bytes) : bytes * option bytes :=
  match name with [] => ([], None) | c :: rest => cut_rest rest [c] end.

Inductive parsed := Exit2 | Parsed (e : tool_env).
(** flag.go, FlagSet.Parse and parseOne, with flag.ExitOnError *)
Fixpoint parse_flags (args : list bytes) (e : tool_env) : parsed :=
  let stop rest := Parsed (ToolEnv (te_driver e) (te_home e) rest) in
  match args with
  | [] => stop []
  | s :: rest =>
      match s with
      | "-"%byte :: c :: _ =>
          if beqb s (str "--") then stop rest
          else
            let name := if Byte.eqb c "-" then skipn 2 s else skipn 1 s in
            match name with
            | [] => Exit2                             (* bad flag syntax *)
            | c' :: _ =>
                if Byte.eqb c' "-" || Byte.eqb c' "=" then Exit2
                else
                  match cut_value name with
                  | (n, Some v) =>
                      match set_flag e n v with Some e' => parse_flags rest e' | None => Exit2 end
                  | (n, None) =>
                      match set_flag e n [] with
                      | None => Exit2                 (* not defined, or help *)
                      | Some _ =>
                          match rest with
                          | [] => Exit2               (* flag needs an argument *)
                          | v :: rest' =>
                              match set_flag e n v with Some e' => parse_flags rest' e' | None => Exit2 end
                          end
                      end
                  end
            end
      | _ => stop (s :: rest)
      end
  end.

(** cmd/bbstool/main.go:21-65 main; None when the program exits with status 2 *)
Definition main (cd : codec) (fuel : nat) (argv : list bytes) : prog (option (outcome (list out))) :=
  match parse_flags argv no_flags with
  | Exit2 => Ret None
  | Parsed e => bind (tool cd fuel e) (fun o => Ret (Some o))
  end.
