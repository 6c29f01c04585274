(** Generated by tools/gen_samples.py: syntax trees of CPython's parser, for C79. *)
From Verif Require Import PyBase Utility AstKinds Ast.

Definition text_documented : string := "import os
print(f'at { os . path.sep = }: {[x for x in (a, -1)] + d[ k ]=!s}', f'{h(t) is not None=}')
".
Definition tree_documented : pyval :=
  (VNode KModule 1%N None [("body", (VList [(VNode KImport 2%N (Some (1, 0)) [("names", (VList [(VNode Kalias 3%N (Some (1, 7)) [("name", (VStr "os")); ("asname", VNone)])]))]); (VNode KExpr 4%N (Some (2, 0)) [("value", (VNode KCall 5%N (Some (2, 0)) [("func", (VNode KName 6%N (Some (2, 0)) [("id", (VStr "print")); ("ctx", (VNode KLoad 7%N None []))])); ("args", (VList [(VNode KJoinedStr 8%N (Some (2, 6)) [("values", (VList [(VNode KConstant 9%N (Some (2, 6)) [("value", (VStr "at  os . path.sep = ")); ("kind", VNone)]); (VNode KFormattedValue 10%N (Some (2, 6)) [("value", (VNode KAttribute 11%N (Some (2, 13)) [("value", (VNode KAttribute 12%N (Some (2, 13)) [("value", (VNode KName 13%N (Some (2, 13)) [("id", (VStr "os")); ("ctx", (VNode KLoad 14%N None []))])); ("attr", (VStr "path")); ("ctx", (VNode KLoad 15%N None []))])); ("attr", (VStr "sep")); ("ctx", (VNode KLoad 16%N None []))])); ("conversion", (VInt (114))); ("format_spec", VNone)]); (VNode KConstant 17%N (Some (2, 6)) [("value", (VStr ": [x for x in (a, -1)] + d[ k ]=")); ("kind", VNone)]); (VNode KFormattedValue 18%N (Some (2, 6)) [("value", (VNode KBinOp 19%N (Some (2, 33)) [("left", (VNode KListComp 20%N (Some (2, 33)) [("elt", (VNode KName 21%N (Some (2, 34)) [("id", (VStr "x")); ("ctx", (VNode KLoad 22%N None []))])); ("generators", (VList [(VNode Kcomprehension 23%N None [("target", (VNode KName 24%N (Some (2, 40)) [("id", (VStr "x")); ("ctx", (VNode KStore 25%N None []))])); ("iter", (VNode KTuple 26%N (Some (2, 45)) [("elts", (VList [(VNode KName 27%N (Some (2, 46)) [("id", (VStr "a")); ("ctx", (VNode KLoad 28%N None []))]); (VNode KUnaryOp 29%N (Some (2, 49)) [("op", (VNode KUSub 30%N None [])); ("operand", (VNode KConstant 31%N (Some (2, 50)) [("value", (VInt (1))); ("kind", VNone)]))])])); ("ctx", (VNode KLoad 32%N None []))])); ("ifs", (VList [])); ("is_async", (VInt (0)))])]))])); ("op", (VNode KAdd 33%N None [])); ("right", (VNode KSubscript 34%N (Some (2, 56)) [("value", (VNode KName 35%N (Some (2, 56)) [("id", (VStr "d")); ("ctx", (VNode KLoad 36%N None []))])); ("slice", (VNode KName 37%N (Some (2, 59)) [("id", (VStr "k")); ("ctx", (VNode KLoad 38%N None []))])); ("ctx", (VNode KLoad 39%N None []))]))])); ("conversion", (VInt (115))); ("format_spec", VNone)])]))]); (VNode KJoinedStr 40%N (Some (2, 69)) [("values", (VList [(VNode KConstant 41%N (Some (2, 69)) [("value", (VStr "h(t) is not None=")); ("kind", VNone)]); (VNode KFormattedValue 42%N (Some (2, 69)) [("value", (VNode KCompare 43%N (Some (2, 72)) [("left", (VNode KCall 44%N (Some (2, 72)) [("func", (VNode KName 45%N (Some (2, 72)) [("id", (VStr "h")); ("ctx", (VNode KLoad 46%N None []))])); ("args", (VList [(VNode KName 47%N (Some (2, 74)) [("id", (VStr "t")); ("ctx", (VNode KLoad 48%N None []))])])); ("keywords", (VList []))])); ("ops", (VList [(VNode KIsNot 49%N None [])])); ("comparators", (VList [(VNode KConstant 50%N (Some (2, 84)) [("value", VNone); ("kind", VNone)])]))])); ("conversion", (VInt (114))); ("format_spec", VNone)])]))])])); ("keywords", (VList []))]))])])); ("type_ignores", (VList []))]).

Definition text_single_quotes : string := "f""{'a'=}""
".
Definition tree_single_quotes : pyval :=
  (VNode KModule 1%N None [("body", (VList [(VNode KExpr 2%N (Some (1, 0)) [("value", (VNode KJoinedStr 3%N (Some (1, 0)) [("values", (VList [(VNode KConstant 4%N (Some (1, 0)) [("value", (VStr "'a'=")); ("kind", VNone)]); (VNode KFormattedValue 5%N (Some (1, 0)) [("value", (VNode KConstant 6%N (Some (1, 3)) [("value", (VStr "a")); ("kind", VNone)])); ("conversion", (VInt (114))); ("format_spec", VNone)])]))]))])])); ("type_ignores", (VList []))]).

Definition text_two_arguments : string := "f'{g(a, b)=}'
".
Definition tree_two_arguments : pyval :=
  (VNode KModule 1%N None [("body", (VList [(VNode KExpr 2%N (Some (1, 0)) [("value", (VNode KJoinedStr 3%N (Some (1, 0)) [("values", (VList [(VNode KConstant 4%N (Some (1, 0)) [("value", (VStr "g(a, b)=")); ("kind", VNone)]); (VNode KFormattedValue 5%N (Some (1, 0)) [("value", (VNode KCall 6%N (Some (1, 3)) [("func", (VNode KName 7%N (Some (1, 3)) [("id", (VStr "g")); ("ctx", (VNode KLoad 8%N None []))])); ("args", (VList [(VNode KName 9%N (Some (1, 5)) [("id", (VStr "a")); ("ctx", (VNode KLoad 10%N None []))]); (VNode KName 11%N (Some (1, 8)) [("id", (VStr "b")); ("ctx", (VNode KLoad 12%N None []))])])); ("keywords", (VList []))])); ("conversion", (VInt (114))); ("format_spec", VNone)])]))]))])])); ("type_ignores", (VList []))]).

Definition text_a_slice : string := "f'{a[1:2]=}'
".
Definition tree_a_slice : pyval :=
  (VNode KModule 1%N None [("body", (VList [(VNode KExpr 2%N (Some (1, 0)) [("value", (VNode KJoinedStr 3%N (Some (1, 0)) [("values", (VList [(VNode KConstant 4%N (Some (1, 0)) [("value", (VStr "a[1:2]=")); ("kind", VNone)]); (VNode KFormattedValue 5%N (Some (1, 0)) [("value", (VNode KSubscript 6%N (Some (1, 3)) [("value", (VNode KName 7%N (Some (1, 3)) [("id", (VStr "a")); ("ctx", (VNode KLoad 8%N None []))])); ("slice", (VNode KSlice 9%N (Some (1, 5)) [("lower", (VNode KConstant 10%N (Some (1, 5)) [("value", (VInt (1))); ("kind", VNone)])); ("upper", (VNode KConstant 11%N (Some (1, 7)) [("value", (VInt (2))); ("kind", VNone)])); ("step", VNone)])); ("ctx", (VNode KLoad 12%N None []))])); ("conversion", (VInt (114))); ("format_spec", VNone)])]))]))])])); ("type_ignores", (VList []))]).

Definition text_renamed : string := "import os as o
f'{o.path=}'
".
Definition tree_renamed : pyval :=
  (VNode KModule 1%N None [("body", (VList [(VNode KImport 2%N (Some (1, 0)) [("names", (VList [(VNode Kalias 3%N (Some (1, 7)) [("name", (VStr "os")); ("asname", (VStr "o"))])]))]); (VNode KExpr 4%N (Some (2, 0)) [("value", (VNode KJoinedStr 5%N (Some (2, 0)) [("values", (VList [(VNode KConstant 6%N (Some (2, 0)) [("value", (VStr "o.path=")); ("kind", VNone)]); (VNode KFormattedValue 7%N (Some (2, 0)) [("value", (VNode KAttribute 8%N (Some (2, 3)) [("value", (VNode KName 9%N (Some (2, 3)) [("id", (VStr "o")); ("ctx", (VNode KLoad 10%N None []))])); ("attr", (VStr "path")); ("ctx", (VNode KLoad 11%N None []))])); ("conversion", (VInt (114))); ("format_spec", VNone)])]))]))])])); ("type_ignores", (VList []))]).

Definition text_plain_text : string := "f'a={a}'
".
Definition tree_plain_text : pyval :=
  (VNode KModule 1%N None [("body", (VList [(VNode KExpr 2%N (Some (1, 0)) [("value", (VNode KJoinedStr 3%N (Some (1, 0)) [("values", (VList [(VNode KConstant 4%N (Some (1, 0)) [("value", (VStr "a=")); ("kind", VNone)]); (VNode KFormattedValue 5%N (Some (1, 0)) [("value", (VNode KName 6%N (Some (1, 5)) [("id", (VStr "a")); ("ctx", (VNode KLoad 7%N None []))])); ("conversion", (VInt (-1))); ("format_spec", VNone)])]))]))])])); ("type_ignores", (VList []))]).
