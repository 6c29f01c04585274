#!/usr/bin/env python3
"""Prints the state record of Visitor.v with its setters (written into rocq/theories/State.v)."""
F = [("depth", "Z", "28"), ("line", "Z", "29"), ("out", "list string", "33"),
     ("lcs", "list (entity * (Z * option Z))", "36"),
     ("modules", "list string", "38"), ("members", "list string", "39"), ("flags", "list flag", "40-148"),
     ("seen_yield", "Z", "56"), ("seen_await", "Z", "57"), ("seen_for", "Z", "71"), ("seen_while", "Z", "72"),
     ("try_finally", "list (Z * Z)", "73"), ("fns", "list string", "75-76"),
     ("kwargs", "list (string * option string)", "77"), ("ufds", "list string", "78"),
     ("strftimes", "list string", "79"), ("bytesdirs", "list string", "80"),
     ("cehs", "list pyval", "81"), ("cencs", "list pyval", "82"), ("typecodes", "list string", "124"),
     ("import_mem_mod", "list (string * string)", "112"), ("name_res", "list (string * string)", "115"),
     ("name_res_type", "list (string * list string)", "118"), ("user_defs", "list string", "121"),
     ("module_as_name", "list (string * string)", "127"), ("ellipsis", "list N", "145"),
     ("info", "refs_t", "142")]
o = "Record st : Type := mkSt {\n" + ";\n".join("  s_%s : %s" % (n, t) for n, t, _ in F) + "\n}.\n\n"
for n, t, ln in F:
    o += "(** source_state.py:%s: attribute replaced. *)\n" % ln
    o += "Definition u_%s (x : %s) (s : st) : st :=\n  mkSt " % (n, t) + " ".join("x" if m == n else "(s_%s s)" % m for m, _, _ in F) + ".\n"
print(o)
