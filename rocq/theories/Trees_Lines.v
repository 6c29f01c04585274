(** Generated by tools/gen_samples.py: syntax trees of CPython's parser, for C64. *)
From Verif Require Import PyBase Utility AstKinds Ast.

Definition text_lines : string := "from zipfile import ZipFile
ZipFile('a',
  'r',
  compresslevel=3)
print(
  flush=1)
".
Definition tree_lines : pyval :=
  (VNode KModule 1%N None [("body", (VList [(VNode KImportFrom 2%N (Some (1, 0)) [("module", (VStr "zipfile")); ("names", (VList [(VNode Kalias 3%N (Some (1, 20)) [("name", (VStr "ZipFile")); ("asname", VNone)])])); ("level", (VInt (0)))]); (VNode KExpr 4%N (Some (2, 0)) [("value", (VNode KCall 5%N (Some (2, 0)) [("func", (VNode KName 6%N (Some (2, 0)) [("id", (VStr "ZipFile")); ("ctx", (VNode KLoad 7%N None []))])); ("args", (VList [(VNode KConstant 8%N (Some (2, 8)) [("value", (VStr "a")); ("kind", VNone)]); (VNode KConstant 9%N (Some (3, 2)) [("value", (VStr "r")); ("kind", VNone)])])); ("keywords", (VList [(VNode Kkeyword 10%N (Some (4, 2)) [("arg", (VStr "compresslevel")); ("value", (VNode KConstant 11%N (Some (4, 16)) [("value", (VInt (3))); ("kind", VNone)]))])]))]))]); (VNode KExpr 12%N (Some (5, 0)) [("value", (VNode KCall 13%N (Some (5, 0)) [("func", (VNode KName 14%N (Some (5, 0)) [("id", (VStr "print")); ("ctx", (VNode KLoad 15%N None []))])); ("args", (VList [])); ("keywords", (VList [(VNode Kkeyword 16%N (Some (6, 2)) [("arg", (VStr "flush")); ("value", (VNode KConstant 17%N (Some (6, 8)) [("value", (VInt (1))); ("kind", VNone)]))])]))]))])])); ("type_ignores", (VList []))]).
