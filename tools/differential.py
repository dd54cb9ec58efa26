#!/usr/bin/env python3
"""Decode the messages of /repo/_testdata with the model and compare with /repo/_regression.

Extracts the model to OCaml in a temporary directory (needs the compiled theories, ocamlfind and
zarith), e.g.   ulimit -s unlimited; tools/differential.py [seconds per message]
The rows of the shipped tables are read from a text file instead of being extracted as numerals.
"""
import collections, glob, json, os, subprocess, sys, tempfile

LIMIT = int(sys.argv[1]) if len(sys.argv) > 1 else 300
TMP = tempfile.mkdtemp(prefix='differential')
BASE = '/repo/_definitions/tables/'

EXT = '''From Coq Require Import Extraction ExtrOcamlBasic ExtrOcamlNatInt ExtrOcamlZBigInt ExtrOcamlNativeString.
From Verif Require Import ModelScript ModelMarshal ModelShipped SpecShipped ProofsShipped6.
Definition plat0 := mkPlatform (fun _ => 0%Z) (fun _ => 0%Z).
Definition go (compat : bool) (fuel : nat) (bytes : list Z) :=
  Run (mkFconfig false compat plat0 (files_fs plat0) fuel) (NewDefaultFactory (RBit (new_bitreader bytes EEof))).
Definition sections := msg_sections.
Extract Constant b_rows => "Rows.b_rows".
Extract Constant d_rows => "Rows.d_rows".
Extraction "model.ml" go sections Binary_String.
'''
ROWS = '''let b_rows, d_rows =
  let b = ref [] and d = ref [] in
  let ic = open_in "rows.txt" in
  let z = Z.of_string in
  (try while true do
    match String.split_on_char '\\t' (input_line ic) with
    | ["B"; m; id; u; sc; rv; nb] -> b := (z m, (z id, (((u, z sc), z rv), z nb))) :: !b
    | ["D"; m; id; l] -> d := (z m, (z id, List.map z (List.filter (fun s -> s <> "") (String.split_on_char ' ' l)))) :: !d
    | _ -> failwith "row"
  done with End_of_file -> ());
  (List.rev !b, List.rev !d)
'''
MAIN = '''module ZZ = Z
open Model
module Z = ZZ
let flt = function
  | S754_zero s -> if s then "-0.0" else "0.0"
  | S754_infinity s -> if s then "-Infinity" else "Infinity"
  | S754_nan -> "NaN"
  | S754_finite (s, m, e) -> Printf.sprintf "%s%.17g" (if s then "-" else "") (ldexp (Z.to_float m) (Z.to_int e))
let str l = "\\"" ^ String.concat "" (List.map (fun z -> Printf.sprintf "\\\\u%04x" (Z.to_int z)) l) ^ "\\""
let bin b = str (binary_String b)
let value = function
  | VNil -> "null" | VUint u -> Z.to_string u | VInt i -> Z.to_string i | VFloat x -> flt x
  | VBytes b -> str b | VBin None -> "null" | VBin (Some b) -> bin b
let fv = function
  | FUint u | FInt u -> Z.to_string u | FFloat x -> flt x | FBool b -> string_of_bool b
  | FBytes b -> str b | FBin None -> "null" | FBin (Some b) -> bin b
  | FTemplate l -> "[" ^ String.concat "," (List.map Z.to_string l) ^ "]"
  | FPayload (_, ss) -> "[" ^ String.concat "," (List.map (fun s -> "[" ^ String.concat "," (List.map (fun c -> value c.c_val) s.sb_cells) ^ "]") ss) ^ "]"
let () =
  let ic = open_in_bin Sys.argv.(1) in
  let n = in_channel_length ic in
  let b = really_input_string ic n in
  let (_, r) = go false 3000000 (List.init n (fun i -> Z.of_int (Char.code b.[i]))) in
  print_endline (match r with
  | Ok m -> "[" ^ String.concat "," (List.map (fun s -> "[" ^ String.concat "," (List.map (fun f -> fv f.f_value) s.sec_fields) ^ "]") (sections m)) ^ "]"
  | Err _ -> "error" | Panic PNil -> "panic: nil" | Panic PIndex -> "panic: index" | Panic _ -> "panic" | NoFuel -> "no fuel")
'''

def rows():
    dirs = sorted((tuple(map(int, d[len(BASE):].split('/'))) for d in glob.glob(BASE + '*/*/*/*')),
                  key=lambda t: (t[1], t[3]))
    b, d = collections.OrderedDict(), collections.OrderedDict()
    for k, t in enumerate(dirs):
        path = BASE + '/'.join(map(str, t))
        for i, r in json.load(open(path + '/TableB.json')).items():
            key = (int(i), r[1], r[2], r[3], r[4])
            b[key] = b.get(key, 0) | 1 << k
        for i, r in json.load(open(path + '/TableD.json')).items():
            key = (int(i), tuple(int(m) for m in r[1]))
            d[key] = d.get(key, 0) | 1 << k
    for (i, u, sc, rv, nb), m in sorted(b.items()):
        yield '\t'.join(map(str, ('B', m, i, u, sc, rv, nb)))
    for (i, ms), m in sorted(d.items()):
        yield '\t'.join(map(str, ('D', m, i, ' '.join(map(str, ms)))))

for name, text in (('Ext.v', EXT), ('rows.ml', ROWS), ('main.ml', MAIN), ('rows.txt', '\n'.join(rows()) + '\n')):
    open(os.path.join(TMP, name), 'w').write(text)
for c in ('coqc -Q /verif/rocq/theories Verif Ext.v', 'rm -f model.mli',
          'ocamlfind ocamlopt -package zarith -linkpkg -w -a rows.ml model.ml main.ml -o dec'):
    subprocess.run(c, shell=True, cwd=TMP, check=True)

def decode(f):
    try:
        return subprocess.run(['./dec', f], cwd=TMP, stdout=subprocess.PIPE, stderr=subprocess.DEVNULL, timeout=LIMIT).stdout.decode().strip()
    except subprocess.TimeoutExpired:
        return 'too slow'

def payload(message):
    for s in message:
        if len(s) > 2 and isinstance(s[2], list) and s[2] and isinstance(s[2][0], list):
            return s[2]

def same(x, y):
    if isinstance(x, str) and isinstance(y, str):   # recorded output replaces bytes that are not UTF-8
        return len(x) == len(y) and all(a == b or a == '�' for a, b in zip(x, y))
    return x == y or (x is None and y is None)

for f in sorted(glob.glob('/repo/_testdata/*.bufr')) + sorted(glob.glob('/repo/_testdata/benchmark_data/*.bufr')):
    t = decode(f)
    ref = '/repo/_regression/' + os.path.basename(f) + '.json'
    if not t.startswith('['):
        print(f, t or 'no output')
    elif '/benchmark_data/' in f or not os.path.exists(ref):
        print(f, 'decoded')
    else:
        got, want = payload(json.loads(t)), payload(json.JSONDecoder().raw_decode(open(ref).read())[0])
        bad = [(i, j) for i, (a, c) in enumerate(zip(want, got)) for j, (x, y) in enumerate(zip(a, c)) if not same(x, y)]
        lengths = [len(a) for a in want] == [len(c) for c in got]
        print(f, 'identical' if not bad and lengths else 'differs: lengths %s, values %s' % (lengths, bad[:5]))
    sys.stdout.flush()
