(** Generated by tools/gen_samples.py: sources as CPython's parser reads them, for C72. *)
From Verif Require Import PyBase Utility AstKinds Ast Parser Processor.

Definition src_clash_novm : string := "import ConfigParser
import configparser
import ssl # novm
".
Definition sample_clash_novm : parsed :=
  (PTree (VNode KModule 1%N None [("body", (VList [(VNode KImport 2%N (Some (1, 0)) [("names", (VList [(VNode Kalias 3%N (Some (1, 7)) [("name", (VStr "ConfigParser")); ("asname", VNone)])]))]); (VNode KImport 4%N (Some (2, 0)) [("names", (VList [(VNode Kalias 5%N (Some (2, 7)) [("name", (VStr "configparser")); ("asname", VNone)])]))]); (VNode KImport 6%N (Some (3, 0)) [("names", (VList [(VNode Kalias 7%N (Some (3, 7)) [("name", (VStr "ssl")); ("asname", VNone)])]))])])); ("type_ignores", (VList []))]) (inr [mkTok TkOther "import" 1 0 1; mkTok TkOther "ConfigParser" 1 7 1; mkTok TkNewline "
" 1 19 1; mkTok TkOther "import" 2 0 2; mkTok TkOther "configparser" 2 7 2; mkTok TkNewline "
" 2 19 2; mkTok TkOther "import" 3 0 3; mkTok TkOther "ssl" 3 7 3; mkTok TkComment "# novm" 3 11 3; mkTok TkNewline "
" 3 17 3; mkTok TkOther "" 4 0 4])).

Definition src_extensions : string := "import typing_extensions
".
Definition sample_extensions : parsed :=
  (PTree (VNode KModule 1%N None [("body", (VList [(VNode KImport 2%N (Some (1, 0)) [("names", (VList [(VNode Kalias 3%N (Some (1, 7)) [("name", (VStr "typing_extensions")); ("asname", VNone)])]))])])); ("type_ignores", (VList []))]) (inr [mkTok TkOther "import" 1 0 1; mkTok TkOther "typing_extensions" 1 7 1; mkTok TkNewline "
" 1 24 1; mkTok TkOther "" 2 0 2])).

Definition src_annotated : string := "d: dict[str, int] = {}
".
Definition sample_annotated : parsed :=
  (PTree (VNode KModule 1%N None [("body", (VList [(VNode KAnnAssign 2%N (Some (1, 0)) [("target", (VNode KName 3%N (Some (1, 0)) [("id", (VStr "d")); ("ctx", (VNode KStore 4%N None []))])); ("annotation", (VNode KSubscript 5%N (Some (1, 3)) [("value", (VNode KName 6%N (Some (1, 3)) [("id", (VStr "dict")); ("ctx", (VNode KLoad 7%N None []))])); ("slice", (VNode KTuple 8%N (Some (1, 8)) [("elts", (VList [(VNode KName 9%N (Some (1, 8)) [("id", (VStr "str")); ("ctx", (VNode KLoad 10%N None []))]); (VNode KName 11%N (Some (1, 13)) [("id", (VStr "int")); ("ctx", (VNode KLoad 12%N None []))])])); ("ctx", (VNode KLoad 13%N None []))])); ("ctx", (VNode KLoad 14%N None []))])); ("value", (VNode KDict 15%N (Some (1, 20)) [("keys", (VList [])); ("values", (VList []))])); ("simple", (VInt (1)))])])); ("type_ignores", (VList []))]) (inr [mkTok TkOther "d" 1 0 1; mkTok TkOther ":" 1 1 1; mkTok TkOther "dict" 1 3 1; mkTok TkOther "[" 1 7 1; mkTok TkOther "str" 1 8 1; mkTok TkOther "," 1 11 1; mkTok TkOther "int" 1 13 1; mkTok TkOther "]" 1 16 1; mkTok TkOther "=" 1 18 1; mkTok TkOther "{" 1 20 1; mkTok TkOther "}" 1 21 1; mkTok TkNewline "
" 1 22 1; mkTok TkOther "" 2 0 2])).
