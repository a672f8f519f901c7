#!/usr/bin/env python3
"""Transcribes the tests of /repo/tests into Coq Examples (rocq/theories/T_Repo.v).

The texts and the expected structures are taken from the Rust sources; only the names of the fields and
constructors are translated."""
import re, sys
R = "/repo/tests/"
out = []
def q(s): return '(lit "' + s.replace('"', '""') + '")' if '\n' not in s else \
    '(text [' + ';\n    '.join('"' + l.replace('"', '""') + '"' for l in s.split('\n')) + ']%string)'
def fns(f):
    src = open(R + f).read()
    ms = list(re.finditer(r'#\[test\]\nfn (\w+)\(\) \{', src))
    for i, m in enumerate(ms):
        end = ms[i+1].start() if i+1 < len(ms) else len(src)
        line = src.count('\n', 0, m.start()) + 1
        yield m.group(1), src[m.end():end], line
def raws(b): return re.findall(r'r#"(.*?)"#', b, re.S)
def plain(b):
    m = re.search(r'let input = "(.*?)";', b, re.S)
    s = m.group(1)
    if s.startswith('\\\n'): s = s[2:]
    return s.replace('\\n', '\n')
def ex(f, line, name, stmt, proof="vm_compute. reflexivity."):
    out.append(f"(** tests/{f} L{line} [{name}] *)\nExample t_{f[:-3]}_{name} :\n  {stmt}.\nProof. {proof} Qed.\n")

FT = dict(Activity="FtActivity", CustomView="FtCustomView", Drawer="FtDrawer")
KB = dict(Unspecified="KbUnspecified", Visible="KbVisible", Hidden="KbHidden")
OR = dict(Portrait="OrPortrait", Landscape="OrLandscape", Both="OrBoth")
TH = {"None": "ThNone"}
def file_items(b):
    r = []
    for m in re.finditer(r'filename: "(.*?)".*?FileType::(\w+).*?KeyboardSetting::(\w+).*?toolbar_enabled: (\w+),\s*fullscreen_enabled: (\w+),\s*drawer_enabled: (\w+),\s*fab_enabled: (\w+).*?Orientation::(\w+).*?Theme::(\w+)', b, re.S):
        n, t, k, a1, a2, a3, a4, o, th = m.groups()
        r.append((m.start(), f'{{| fi_filename := {q(n)}; fi_type := {FT[t]}; fi_keyboard := {KB[k]};\n     fi_options := {{| ao_toolbar := {a1}; ao_fullscreen := {a2}; ao_drawer := {a3}; ao_fab := {a4} |}};\n     fi_orientation := {OR[o]}; fi_theme := {TH[th]} |}}'))
    return r
def lst(xs): return '[' + ';\n   '.join(xs) + ']'
f = "file_parser.rs"
for name, b, line in fns(f):
    t = raws(b)[0]
    its = file_items(b)
    if name.endswith("item"): v = its[0][1]
    else:
        cv = b.index("custom_views:")
        v = "{| f_activities := " + lst([x for p, x in its if p < cv]) + ";\n   f_custom_views := " + lst([x for p, x in its if p > cv]) + " |}"
    k = "file_item" if name.endswith("item") else "file"
    if name.startswith("parse"): ex(f, line, name, f"{k}_parse {q(t)} =\n  {'Some' if k == 'file_item' else 'Ok'} {v}")
    else: ex(f, line, name, f"{k}_reconstruct {v} =\n  {q(t)}")
def res_items(b):
    return [(m.start(), f'{{| ri_full_name := {q(m.group(1))}; ri_name := {q(m.group(2))}; ri_type := {m.group(3)} |}}')
            for m in re.finditer(r'full_name:\s*"(.*?)".*?name: "(.*?)".*?r#type: (\d+)', b, re.S)]
f = "resource_parser.rs"
for name, b, line in fns(f):
    t = raws(b)[0]
    its = res_items(b)
    if name.endswith("item"): v = its[0][1]
    else:
        so, fo = b.index("sounds: vec"), b.index("fonts: vec")
        v = "{| rs_images := " + lst([x for p, x in its if p < so]) + ";\n   rs_sounds := " + lst([x for p, x in its if so < p < fo]) + ";\n   rs_fonts := " + lst([x for p, x in its if p > fo]) + " |}"
    k = "resource_item" if name.endswith("item") else "resource"
    if name.startswith("parse"): ex(f, line, name, f"{k}_parse {q(t)} =\n  {'Some' if k == 'resource_item' else 'Ok'} {v}")
    else: ex(f, line, name, f"{k}_reconstruct {v} =\n  {q(t)}")
def lib_items(b):
    return [f'{{| li_ad_units := []; li_data := {q(m.group(2))}; li_lib_type := {m.group(1)}; li_reserved1 := {q(m.group(3))};\n     li_reserved2 := {q(m.group(4))}; li_reserved3 := {q(m.group(5))}; li_test_devices := []; li_use_yn := {q(m.group(6))} |}}'
            for m in re.finditer(r'ad_units: vec!\[\],\s*lib_type: (\d+),\s*data: "(.*?)".*?reserved1: "(.*?)".*?reserved2: "(.*?)".*?reserved3: "(.*?)".*?test_devices: vec!\[\],\s*use_yn: "(.*?)"', b, re.S)]
f = "library_parser.rs"
for name, b, line in fns(f):
    t = raws(b)[0]
    its = lib_items(b)
    if name.endswith("item"): v = its[0]
    else:
        v = "{| " + ";\n   ".join(f"{a} := {x}" for a, x in zip(["l_firebase", "l_compat", "l_admob", "l_google_map"], its)) + " |}"
    k = "library_item" if name.endswith("item") else "library"
    if name.startswith("parse"): ex(f, line, name, f"{k}_parse {q(t)} =\n  {'Some' if k == 'library_item' else 'Ok'} {v}")
    else: ex(f, line, name, f"{k}_reconstruct {v} =\n  {q(t)}")
VT = dict(Boolean="VtBoolean", Integer="VtInteger", String="VtString", HashMap="VtHashMap")
f = "logic_parser.rs"
for name, b, line in fns(f):
    if name.startswith("parse_variable") or name.startswith("parse_list_variable"):
        l = "list_" in name
        t = raws(b)[0] if l and "pool" in name else plain(b)
        p, k = ("lv", "list_variable") if l else ("va", "variable")
        vs = [(n, f"{{| {p}_name := {q(n)}; {p}_type := {VT[ty]} |}}") for n, ty in
              re.findall(r'name: "(\w+)"\.to_string\(\),\s*r#type: VariableType::(\w+)', b)]
        if "pool" not in name: ex(f, line, name, f"{k}_parse {q(t)} = Ok {vs[0][1]}")
        else: ex(f, line, name, f"{k}_pool_parse {q(t)} =\n  Ok " + lst([f"({q(n)}, {v})" for n, v in vs]))
    elif name == "parse_component":
        t = raws(b)[0]
        m = re.search(r'id: "(.*?)".*?param1: "(.*?)".*?param2: "(.*?)".*?param3: "(.*?)".*?r#type: (\d+)', b, re.S).groups()
        ex(f, line, name, f"component_parse {q(t)} =\n  Ok {{| co_id := {q(m[0])}; co_param1 := {q(m[1])}; co_param2 := {q(m[2])}; co_param3 := {q(m[3])}; co_type := {m[4]} |}}")
    elif name.startswith("parse_event"):
        t = raws(b)[0]
        evs = [f"{{| ev_name := {q(x[0])}; ev_type := {x[1]}; ev_target_id := {q(x[2])}; ev_target_type := {x[3]} |}}" for x in
               re.findall(r'event_name: "(.*?)"\.to_string\(\),\s*event_type: (\d+),\s*target_id: "(.*?)"\.to_string\(\),\s*target_type: (\d+)', b)]
        if "pool" in name: ex(f, line, name, f"event_pool_parse {q(t)} =\n  Ok {lst(evs)}")
        else: ex(f, line, name, f"event_parse {q(t)} =\n  Ok {evs[0]}")
    elif name.startswith("parse_more_block"):
        t = plain(b)
        ms = [(n, f"{{| mb_id := {q(n)}; mb_spec := {q(sp)} |}}") for n, sp in
              re.findall(r'id: "(.*?)"\.to_string\(\),\s*spec: "(.*?)"\.to_string\(\)', b)]
        if "pool" in name: ex(f, line, name, f"more_block_pool_parse {q(t)} =\n  Ok " + lst([f"({q(n)}, {v})" for n, v in ms]))
        else: ex(f, line, name, f"more_block_parse {q(t)} = Ok {ms[0][1]}")
    elif name == "parse_logic_0":
        ex(f, line, name, f"is_ok (logic_parse false {q(raws(b)[0])}) = true")
    elif name == "reconstruct_logic":
        ex(f, line, name, f"let t := {q(raws(b)[0])} in\n  rmap logic_reconstruct (logic_parse false t) = Ok t")
f = "view_parser.rs"
for name, b, line in fns(f):
    t = raws(b)[0]
    if name == "parse_android_view": ex(f, line, name, f"is_some (view_line_parse {q(t)}) = true")
    if name == "parse_view": ex(f, line, name, f"is_ok (view_parse {q(t)}) = true")
    if name == "reconstruct_android_view": ex(f, line, name, f"let t := {q(t)} in\n  option_map view_line_reconstruct (view_line_parse t) = Some t")
    if name == "reconstruct_view": ex(f, line, name, f"let t := {q(t)} in\n  rmap view_reconstruct (view_parse t) = Ok t", "apply view_test. vm_compute. reflexivity.")
f = "api_block.rs"
for name, b, line in fns(f):
    t = raws(b)[0]
    out.append("(** the indented outline printed by [print_blocks] of tests/api_block.rs L61-77: depth, text, category *)")
    out.append('''Fixpoint outline (depth : nat) (b : ablock) : list (nat * str * res color block_category) :=
  match b with
  | MkBlock s1 s2 _ _ items _ =>
    (depth, content_to_string items, block_category_of b) ::
    match s1 with Some l => flat_map (outline (S depth)) l | None => [] end ++
    match s2 with Some l => flat_map (outline (S depth)) l | None => [] end
  end.
''')
    out.append(f'''(** tests/{f} L{line} [{name}]: none of the [unwrap]s panics; the outline is computed, the test only prints it *)
Definition t_api_block_text : str :=
  {q(t)}.
Example t_api_block_{name} :
  let bs := let* c := map_err (fun _ => tt) (block_container_parse t_api_block_text) in map_err (fun _ => tt) (blocks_try_from c) in
  rmap (flat_map (outline 0)) bs =
  Ok [(0%nat, lit "if %b then", Ok CatControl);
   (1%nat, lit "%m.view setVisible %m.visible", Ok CatViewFunc); (1%nat, lit "%m.view setVisible %m.visible", Ok CatViewFunc);
   (1%nat, lit "%m.view setVisible %m.visible", Ok CatViewFunc); (1%nat, lit "%m.view setVisible %m.visible", Ok CatViewFunc);
   (0%nat, lit "if %b then", Ok CatControl);
   (1%nat, lit "%m.textview setText %s", Ok CatViewFunc); (1%nat, lit "%m.textview setText %s", Ok CatViewFunc);
   (1%nat, lit "%m.textview setText %s", Ok CatViewFunc); (1%nat, lit "%m.textview setText %s", Ok CatViewFunc)] /\\
  is_ok (let* l := bs in blocks_into l) = true.
Proof. vm_compute. auto. Qed.
''')
out.append("""(** src/api/mod.rs L295-300 [test_view_name_to_logic] *)
Example t_api_mod_test_view_name_to_logic :
  view_name_to_logic (lit "main") = lit "MainActivity" /\\
  view_name_to_logic (lit "debug_screen") = lit "DebugScreenActivity" /\\
  view_name_to_logic (lit "very_long_string_i_dont_know_why") = lit "VeryLongStringIDontKnowWhyActivity".
Proof. vm_compute. auto. Qed.
""")
head = r'''(** The tests of /repo/tests, transcribed by tools/gen_tests.py: the model gives the results that the authors of the
    program wrote down. (They are tests of the model, not proofs about all inputs.) *)
From Verif Require Import Base Str Dec Json Recs M_Color M_File M_Library M_Resource M_Logic M_View A_Block A_Screen A_Project.
Local Open Scope N_scope.

Definition text (l : list string) : str := join NL (map lit l).
Definition is_ok {E A} (r : res E A) : bool := match r with Ok _ => true | _ => false end.
Definition is_some {A} (o : option A) : bool := match o with Some _ => true | None => false end.
(** for the long texts: [trim] with a reversal that takes linear time *)
Definition fast_trim (t : str) : str := rev' (trim_start (rev' (trim_start t))).
Lemma rev_rev' {A} (l : list A) : rev' l = rev l.
Proof. unfold rev'. now rewrite <- rev_alt. Qed.
Lemma fast_trim_eq t : fast_trim t = trim t.
Proof. unfold fast_trim, trim, trim_end. now rewrite !rev_rev'. Qed.
Definition fast_layout (l : layout) : str := fast_trim (fold_left (fun acc v => acc ++ view_line_reconstruct v ++ [NL]) l []).
Definition fast_view (v : view) : str :=
  rev' (trim_start (rev'
    (concat (map (fun kv => [AT] ++ fst kv ++ lit ".xml" ++ [NL] ++ fast_layout (snd kv) ++ [NL]) (vw_layouts v)) ++
     [NL] ++
     concat (map (fun kv => [AT] ++ fst kv ++ lit ".xml_fab" ++ [NL] ++ view_line_reconstruct (snd kv) ++ [NL]) (vw_fabs v))))).
Lemma fast_view_eq v : fast_view v = view_reconstruct v.
Proof.
  unfold fast_view, view_reconstruct, trim_end. rewrite !rev_rev'. do 4 f_equal.
  f_equal. apply map_ext. intros. unfold fast_layout. now rewrite fast_trim_eq.
Qed.
Lemma view_test t : rmap fast_view (view_parse t) = Ok t -> rmap view_reconstruct (view_parse t) = Ok t.
Proof. destruct (view_parse t); cbn; auto. now rewrite fast_view_eq. Qed.
'''
open(sys.argv[1], "w").write(head + "\n" + "\n".join(out))
