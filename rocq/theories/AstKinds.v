(** GENERATED by tools/gen_ast.py: the concrete node classes of CPython 3.12's [ast] module
    (standard library, not /repo). Do not edit. *)
From Verif Require Import PyBase.

Inductive kind : Set :=
| KAdd
| KAnd
| KAnnAssign
| KAssert
| KAssign
| KAsyncFor
| KAsyncFunctionDef
| KAsyncWith
| KAttribute
| KAugAssign
| KAwait
| KBinOp
| KBitAnd
| KBitOr
| KBitXor
| KBoolOp
| KBreak
| KCall
| KClassDef
| KCompare
| KConstant
| KContinue
| KDel
| KDelete
| KDict
| KDictComp
| KDiv
| KEq
| KExceptHandler
| KExpr
| KExpression
| KFloorDiv
| KFor
| KFormattedValue
| KFunctionDef
| KFunctionType
| KGeneratorExp
| KGlobal
| KGt
| KGtE
| KIf
| KIfExp
| KImport
| KImportFrom
| KIn
| KInteractive
| KInvert
| KIs
| KIsNot
| KJoinedStr
| KLShift
| KLambda
| KList
| KListComp
| KLoad
| KLt
| KLtE
| KMatMult
| KMatch
| KMatchAs
| KMatchClass
| KMatchMapping
| KMatchOr
| KMatchSequence
| KMatchSingleton
| KMatchStar
| KMatchValue
| KMod
| KModule
| KMult
| KName
| KNamedExpr
| KNonlocal
| KNot
| KNotEq
| KNotIn
| KOr
| KParamSpec
| KPass
| KPow
| KRShift
| KRaise
| KReturn
| KSet
| KSetComp
| KSlice
| KStarred
| KStore
| KSub
| KSubscript
| KTry
| KTryStar
| KTuple
| KTypeAlias
| KTypeIgnore
| KTypeVar
| KTypeVarTuple
| KUAdd
| KUSub
| KUnaryOp
| KWhile
| KWith
| KYield
| KYieldFrom
| Kalias
| Karg
| Karguments
| Kcomprehension
| Kkeyword
| Kmatch_case
| Kwithitem.

Definition kind_id (k : kind) : N :=
  match k with
  | KAdd => 0%N
  | KAnd => 1%N
  | KAnnAssign => 2%N
  | KAssert => 3%N
  | KAssign => 4%N
  | KAsyncFor => 5%N
  | KAsyncFunctionDef => 6%N
  | KAsyncWith => 7%N
  | KAttribute => 8%N
  | KAugAssign => 9%N
  | KAwait => 10%N
  | KBinOp => 11%N
  | KBitAnd => 12%N
  | KBitOr => 13%N
  | KBitXor => 14%N
  | KBoolOp => 15%N
  | KBreak => 16%N
  | KCall => 17%N
  | KClassDef => 18%N
  | KCompare => 19%N
  | KConstant => 20%N
  | KContinue => 21%N
  | KDel => 22%N
  | KDelete => 23%N
  | KDict => 24%N
  | KDictComp => 25%N
  | KDiv => 26%N
  | KEq => 27%N
  | KExceptHandler => 28%N
  | KExpr => 29%N
  | KExpression => 30%N
  | KFloorDiv => 31%N
  | KFor => 32%N
  | KFormattedValue => 33%N
  | KFunctionDef => 34%N
  | KFunctionType => 35%N
  | KGeneratorExp => 36%N
  | KGlobal => 37%N
  | KGt => 38%N
  | KGtE => 39%N
  | KIf => 40%N
  | KIfExp => 41%N
  | KImport => 42%N
  | KImportFrom => 43%N
  | KIn => 44%N
  | KInteractive => 45%N
  | KInvert => 46%N
  | KIs => 47%N
  | KIsNot => 48%N
  | KJoinedStr => 49%N
  | KLShift => 50%N
  | KLambda => 51%N
  | KList => 52%N
  | KListComp => 53%N
  | KLoad => 54%N
  | KLt => 55%N
  | KLtE => 56%N
  | KMatMult => 57%N
  | KMatch => 58%N
  | KMatchAs => 59%N
  | KMatchClass => 60%N
  | KMatchMapping => 61%N
  | KMatchOr => 62%N
  | KMatchSequence => 63%N
  | KMatchSingleton => 64%N
  | KMatchStar => 65%N
  | KMatchValue => 66%N
  | KMod => 67%N
  | KModule => 68%N
  | KMult => 69%N
  | KName => 70%N
  | KNamedExpr => 71%N
  | KNonlocal => 72%N
  | KNot => 73%N
  | KNotEq => 74%N
  | KNotIn => 75%N
  | KOr => 76%N
  | KParamSpec => 77%N
  | KPass => 78%N
  | KPow => 79%N
  | KRShift => 80%N
  | KRaise => 81%N
  | KReturn => 82%N
  | KSet => 83%N
  | KSetComp => 84%N
  | KSlice => 85%N
  | KStarred => 86%N
  | KStore => 87%N
  | KSub => 88%N
  | KSubscript => 89%N
  | KTry => 90%N
  | KTryStar => 91%N
  | KTuple => 92%N
  | KTypeAlias => 93%N
  | KTypeIgnore => 94%N
  | KTypeVar => 95%N
  | KTypeVarTuple => 96%N
  | KUAdd => 97%N
  | KUSub => 98%N
  | KUnaryOp => 99%N
  | KWhile => 100%N
  | KWith => 101%N
  | KYield => 102%N
  | KYieldFrom => 103%N
  | Kalias => 104%N
  | Karg => 105%N
  | Karguments => 106%N
  | Kcomprehension => 107%N
  | Kkeyword => 108%N
  | Kmatch_case => 109%N
  | Kwithitem => 110%N
  end.

Definition all_kinds : list kind :=
  [ KAdd;
    KAnd;
    KAnnAssign;
    KAssert;
    KAssign;
    KAsyncFor;
    KAsyncFunctionDef;
    KAsyncWith;
    KAttribute;
    KAugAssign;
    KAwait;
    KBinOp;
    KBitAnd;
    KBitOr;
    KBitXor;
    KBoolOp;
    KBreak;
    KCall;
    KClassDef;
    KCompare;
    KConstant;
    KContinue;
    KDel;
    KDelete;
    KDict;
    KDictComp;
    KDiv;
    KEq;
    KExceptHandler;
    KExpr;
    KExpression;
    KFloorDiv;
    KFor;
    KFormattedValue;
    KFunctionDef;
    KFunctionType;
    KGeneratorExp;
    KGlobal;
    KGt;
    KGtE;
    KIf;
    KIfExp;
    KImport;
    KImportFrom;
    KIn;
    KInteractive;
    KInvert;
    KIs;
    KIsNot;
    KJoinedStr;
    KLShift;
    KLambda;
    KList;
    KListComp;
    KLoad;
    KLt;
    KLtE;
    KMatMult;
    KMatch;
    KMatchAs;
    KMatchClass;
    KMatchMapping;
    KMatchOr;
    KMatchSequence;
    KMatchSingleton;
    KMatchStar;
    KMatchValue;
    KMod;
    KModule;
    KMult;
    KName;
    KNamedExpr;
    KNonlocal;
    KNot;
    KNotEq;
    KNotIn;
    KOr;
    KParamSpec;
    KPass;
    KPow;
    KRShift;
    KRaise;
    KReturn;
    KSet;
    KSetComp;
    KSlice;
    KStarred;
    KStore;
    KSub;
    KSubscript;
    KTry;
    KTryStar;
    KTuple;
    KTypeAlias;
    KTypeIgnore;
    KTypeVar;
    KTypeVarTuple;
    KUAdd;
    KUSub;
    KUnaryOp;
    KWhile;
    KWith;
    KYield;
    KYieldFrom;
    Kalias;
    Karg;
    Karguments;
    Kcomprehension;
    Kkeyword;
    Kmatch_case;
    Kwithitem ].

Definition kind_eqb (a b : kind) : bool := N.eqb (kind_id a) (kind_id b).

Definition kind_name (k : kind) : string :=
  match k with
  | KAdd => "Add"
  | KAnd => "And"
  | KAnnAssign => "AnnAssign"
  | KAssert => "Assert"
  | KAssign => "Assign"
  | KAsyncFor => "AsyncFor"
  | KAsyncFunctionDef => "AsyncFunctionDef"
  | KAsyncWith => "AsyncWith"
  | KAttribute => "Attribute"
  | KAugAssign => "AugAssign"
  | KAwait => "Await"
  | KBinOp => "BinOp"
  | KBitAnd => "BitAnd"
  | KBitOr => "BitOr"
  | KBitXor => "BitXor"
  | KBoolOp => "BoolOp"
  | KBreak => "Break"
  | KCall => "Call"
  | KClassDef => "ClassDef"
  | KCompare => "Compare"
  | KConstant => "Constant"
  | KContinue => "Continue"
  | KDel => "Del"
  | KDelete => "Delete"
  | KDict => "Dict"
  | KDictComp => "DictComp"
  | KDiv => "Div"
  | KEq => "Eq"
  | KExceptHandler => "ExceptHandler"
  | KExpr => "Expr"
  | KExpression => "Expression"
  | KFloorDiv => "FloorDiv"
  | KFor => "For"
  | KFormattedValue => "FormattedValue"
  | KFunctionDef => "FunctionDef"
  | KFunctionType => "FunctionType"
  | KGeneratorExp => "GeneratorExp"
  | KGlobal => "Global"
  | KGt => "Gt"
  | KGtE => "GtE"
  | KIf => "If"
  | KIfExp => "IfExp"
  | KImport => "Import"
  | KImportFrom => "ImportFrom"
  | KIn => "In"
  | KInteractive => "Interactive"
  | KInvert => "Invert"
  | KIs => "Is"
  | KIsNot => "IsNot"
  | KJoinedStr => "JoinedStr"
  | KLShift => "LShift"
  | KLambda => "Lambda"
  | KList => "List"
  | KListComp => "ListComp"
  | KLoad => "Load"
  | KLt => "Lt"
  | KLtE => "LtE"
  | KMatMult => "MatMult"
  | KMatch => "Match"
  | KMatchAs => "MatchAs"
  | KMatchClass => "MatchClass"
  | KMatchMapping => "MatchMapping"
  | KMatchOr => "MatchOr"
  | KMatchSequence => "MatchSequence"
  | KMatchSingleton => "MatchSingleton"
  | KMatchStar => "MatchStar"
  | KMatchValue => "MatchValue"
  | KMod => "Mod"
  | KModule => "Module"
  | KMult => "Mult"
  | KName => "Name"
  | KNamedExpr => "NamedExpr"
  | KNonlocal => "Nonlocal"
  | KNot => "Not"
  | KNotEq => "NotEq"
  | KNotIn => "NotIn"
  | KOr => "Or"
  | KParamSpec => "ParamSpec"
  | KPass => "Pass"
  | KPow => "Pow"
  | KRShift => "RShift"
  | KRaise => "Raise"
  | KReturn => "Return"
  | KSet => "Set"
  | KSetComp => "SetComp"
  | KSlice => "Slice"
  | KStarred => "Starred"
  | KStore => "Store"
  | KSub => "Sub"
  | KSubscript => "Subscript"
  | KTry => "Try"
  | KTryStar => "TryStar"
  | KTuple => "Tuple"
  | KTypeAlias => "TypeAlias"
  | KTypeIgnore => "TypeIgnore"
  | KTypeVar => "TypeVar"
  | KTypeVarTuple => "TypeVarTuple"
  | KUAdd => "UAdd"
  | KUSub => "USub"
  | KUnaryOp => "UnaryOp"
  | KWhile => "While"
  | KWith => "With"
  | KYield => "Yield"
  | KYieldFrom => "YieldFrom"
  | Kalias => "alias"
  | Karg => "arg"
  | Karguments => "arguments"
  | Kcomprehension => "comprehension"
  | Kkeyword => "keyword"
  | Kmatch_case => "match_case"
  | Kwithitem => "withitem"
  end.
