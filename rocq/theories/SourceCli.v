(** * The source text of scripts.py (the command [dat-to-json] of pyproject.toml), as syntax trees.

    Generated by tools/gen_src.py from /repo/src/genieutils/scripts.py.  Left out: the imports and
    [if __name__ == '__main__': main()]. *)
From Verif Require Import Base PyFloat Py.
From Coq Require Import String.
Open Scope Z_scope.
Open Scope string_scope.
Local Open Scope list_scope.

(** scripts.py:10-19 dat_to_json *)
Definition src_dat_to_json : func := mkFunc StaticMethod "scripts" [] [] [
  SAssign "parser" (ECall (EAttr (EName "argparse") "ArgumentParser") [EKw "prog" (EConst (KStr "dat-to-json")); EKw "description" (EConst (KStr "Read a genie engine dat file and print the json representation to stdout"))]);
  SExpr (ECall (EAttr (EName "parser") "add_argument") [(EConst (KStr "filename")); EKw "type" (EName "Path"); EKw "help" (EConst (KStr "The dat file to read"))]);
  SAssign "args" (ECall (EAttr (EName "parser") "parse_args") []);
  SAssign "dat_file" (ECall (EAttr (EName "DatFile") "parse") [(EAttr (EName "args") "filename")]);
  SExpr (ECall (EName "print") [(ECall (EAttr (EName "json") "dumps") [(ECall (EAttr (EName "dataclasses") "asdict") [(EName "dat_file")]); EKw "indent" (EConst (KInt 2))])])].
(** scripts.py:22-23 main *)
Definition src_main : func := mkFunc StaticMethod "scripts" [] [] [
  SExpr (ECall (EName "dat_to_json") [])].
