(** Generated by tools/gen_samples.py: sources as CPython's parser reads them, for concrete cases. *)
From Verif Require Import PyBase Utility AstKinds Ast Parser Processor.

Definition src_argparse : string := "import argparse
".
Definition sample_argparse : parsed :=
  (PTree (VNode KModule 1%N None [("body", (VList [(VNode KImport 2%N (Some (1, 0)) [("names", (VList [(VNode Kalias 3%N (Some (1, 7)) [("name", (VStr "argparse")); ("asname", VNone)])]))])])); ("type_ignores", (VList []))]) (inr [mkTok TkOther "import" 1 0 1; mkTok TkOther "argparse" 1 7 1; mkTok TkNewline "
" 1 15 1; mkTok TkOther "" 2 0 2])).

Definition src_walrus : string := "(x := 1)
".
Definition sample_walrus : parsed :=
  (PTree (VNode KModule 1%N None [("body", (VList [(VNode KExpr 2%N (Some (1, 0)) [("value", (VNode KNamedExpr 3%N (Some (1, 1)) [("target", (VNode KName 4%N (Some (1, 1)) [("id", (VStr "x")); ("ctx", (VNode KStore 5%N None []))])); ("value", (VNode KConstant 6%N (Some (1, 6)) [("value", (VInt (1))); ("kind", VNone)]))]))])])); ("type_ignores", (VList []))]) (inr [mkTok TkOther "(" 1 0 1; mkTok TkOther "x" 1 1 1; mkTok TkOther ":=" 1 3 1; mkTok TkOther "1" 1 6 1; mkTok TkOther ")" 1 7 1; mkTok TkNewline "
" 1 8 1; mkTok TkOther "" 2 0 2])).

Definition src_print2 : string := "print 'a'
".
Definition sample_print2 : parsed :=
  (PErr (PeSyntax (mkSyn (Some "print 'a'
") "Missing parentheses in call to 'print'. Did you mean print(...)?" "<unknown>" "1" "1"))).

Definition src_strftime : string := "x.strftime(5)
".
Definition sample_strftime : parsed :=
  (PTree (VNode KModule 1%N None [("body", (VList [(VNode KExpr 2%N (Some (1, 0)) [("value", (VNode KCall 3%N (Some (1, 0)) [("func", (VNode KAttribute 4%N (Some (1, 0)) [("value", (VNode KName 5%N (Some (1, 0)) [("id", (VStr "x")); ("ctx", (VNode KLoad 6%N None []))])); ("attr", (VStr "strftime")); ("ctx", (VNode KLoad 7%N None []))])); ("args", (VList [(VNode KConstant 8%N (Some (1, 11)) [("value", (VInt (5))); ("kind", VNone)])])); ("keywords", (VList []))]))])])); ("type_ignores", (VList []))]) (inr [mkTok TkOther "x" 1 0 1; mkTok TkOther "." 1 1 1; mkTok TkOther "strftime" 1 2 1; mkTok TkOther "(" 1 10 1; mkTok TkOther "5" 1 11 1; mkTok TkOther ")" 1 12 1; mkTok TkNewline "
" 1 13 1; mkTok TkOther "" 2 0 2])).

Definition src_asyncio : string := "import asyncio
".
Definition sample_asyncio : parsed :=
  (PTree (VNode KModule 1%N None [("body", (VList [(VNode KImport 2%N (Some (1, 0)) [("names", (VList [(VNode Kalias 3%N (Some (1, 7)) [("name", (VStr "asyncio")); ("asname", VNone)])]))])])); ("type_ignores", (VList []))]) (inr [mkTok TkOther "import" 1 0 1; mkTok TkOther "asyncio" 1 7 1; mkTok TkNewline "
" 1 14 1; mkTok TkOther "" 2 0 2])).

Definition src_novm : string := "import argparse # novm
".
Definition sample_novm : parsed :=
  (PTree (VNode KModule 1%N None [("body", (VList [(VNode KImport 2%N (Some (1, 0)) [("names", (VList [(VNode Kalias 3%N (Some (1, 7)) [("name", (VStr "argparse")); ("asname", VNone)])]))])])); ("type_ignores", (VList []))]) (inr [mkTok TkOther "import" 1 0 1; mkTok TkOther "argparse" 1 7 1; mkTok TkComment "# novm" 1 16 1; mkTok TkNewline "
" 1 22 1; mkTok TkOther "" 2 0 2])).

Definition src_literal_ann : string := "x: Literal[1] = 1
".
Definition sample_literal_ann : parsed :=
  (PTree (VNode KModule 1%N None [("body", (VList [(VNode KAnnAssign 2%N (Some (1, 0)) [("target", (VNode KName 3%N (Some (1, 0)) [("id", (VStr "x")); ("ctx", (VNode KStore 4%N None []))])); ("annotation", (VNode KSubscript 5%N (Some (1, 3)) [("value", (VNode KName 6%N (Some (1, 3)) [("id", (VStr "Literal")); ("ctx", (VNode KLoad 7%N None []))])); ("slice", (VNode KConstant 8%N (Some (1, 11)) [("value", (VInt (1))); ("kind", VNone)])); ("ctx", (VNode KLoad 9%N None []))])); ("value", (VNode KConstant 10%N (Some (1, 16)) [("value", (VInt (1))); ("kind", VNone)])); ("simple", (VInt (1)))])])); ("type_ignores", (VList []))]) (inr [mkTok TkOther "x" 1 0 1; mkTok TkOther ":" 1 1 1; mkTok TkOther "Literal" 1 3 1; mkTok TkOther "[" 1 10 1; mkTok TkOther "1" 1 11 1; mkTok TkOther "]" 1 12 1; mkTok TkOther "=" 1 14 1; mkTok TkOther "1" 1 16 1; mkTok TkNewline "
" 1 17 1; mkTok TkOther "" 2 0 2])).

Definition src_enum_typing : string := "import enum
import typing
".
Definition sample_enum_typing : parsed :=
  (PTree (VNode KModule 1%N None [("body", (VList [(VNode KImport 2%N (Some (1, 0)) [("names", (VList [(VNode Kalias 3%N (Some (1, 7)) [("name", (VStr "enum")); ("asname", VNone)])]))]); (VNode KImport 4%N (Some (2, 0)) [("names", (VList [(VNode Kalias 5%N (Some (2, 7)) [("name", (VStr "typing")); ("asname", VNone)])]))])])); ("type_ignores", (VList []))]) (inr [mkTok TkOther "import" 1 0 1; mkTok TkOther "enum" 1 7 1; mkTok TkNewline "
" 1 11 1; mkTok TkOther "import" 2 0 2; mkTok TkOther "typing" 2 7 2; mkTok TkNewline "
" 2 13 2; mkTok TkOther "" 3 0 3])).

Definition src_py2only : string := "import ConfigParser
".
Definition sample_py2only : parsed :=
  (PTree (VNode KModule 1%N None [("body", (VList [(VNode KImport 2%N (Some (1, 0)) [("names", (VList [(VNode Kalias 3%N (Some (1, 7)) [("name", (VStr "ConfigParser")); ("asname", VNone)])]))])])); ("type_ignores", (VList []))]) (inr [mkTok TkOther "import" 1 0 1; mkTok TkOther "ConfigParser" 1 7 1; mkTok TkNewline "
" 1 19 1; mkTok TkOther "" 2 0 2])).

Definition src_py3only : string := "import configparser
".
Definition sample_py3only : parsed :=
  (PTree (VNode KModule 1%N None [("body", (VList [(VNode KImport 2%N (Some (1, 0)) [("names", (VList [(VNode Kalias 3%N (Some (1, 7)) [("name", (VStr "configparser")); ("asname", VNone)])]))])])); ("type_ignores", (VList []))]) (inr [mkTok TkOther "import" 1 0 1; mkTok TkOther "configparser" 1 7 1; mkTok TkNewline "
" 1 19 1; mkTok TkOther "" 2 0 2])).
