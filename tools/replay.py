#!/usr/bin/env python3
"""Replay the reference documents of the repository on the model.

/repo/tests/web_platform holds documents (data/*.json) with the layout browsers
give them (ref/*.json), and lists of those colosseum is known to get wrong
(not_implemented, not_compliant; tests/utils.py runs them as expected failures).
This builds each document in the model as tests/utils.py does (update() with the
texts of the style), lays it out with layout_css, compares with the reference as
assertLayout does, and prints how often the model passes and fails where the
suite says the code passes and fails.  It reads /repo as text.  The model is run
by extraction to OCaml in a temporary directory; nothing here is part of the
proofs.  Usage: tools/replay.py, after make in rocq/."""
import json, os, re, glob, subprocess, sys, tempfile
from fractions import Fraction
from collections import Counter
THEORIES = os.path.abspath(os.path.join(os.path.dirname(__file__), '..', 'rocq', 'theories'))
TMP = tempfile.mkdtemp()
os.chdir(TMP)
out=open('data.txt','w'); meta=[]
def enc(s): return s.encode('utf-8').hex()
def doc(d):
    if 'tag' not in d: return None
    st=d['style']; L=[]
    for k,v in st.items():
        L.append((k,v))
    ks=[doc(c) for c in d.get('children',[])]
    ks=[k for k in ks if k is not None]
    return (L,ks)
def wdoc(t):
    L,ks=t
    out.write('N %d %d\n'%(len(L),len(ks)))
    for k,v in L: out.write('A %s %s\n'%(enc(k) or '-',enc(str(v)) or '-'))
    for k in ks: wdoc(k)
def fr(x):
    f=Fraction(x); return '%d/%d'%(f.numerator,f.denominator)
def wref(r):
    try:
        xs=[]
        for k in ['content','padding_box','border_box']:
            xs+=[r[k]['size'][0],r[k]['size'][1],r[k]['position'][0],r[k]['position'][1]]
        xs=[fr(x) for x in xs]
    except (KeyError,TypeError):
        out.write('T\n'); return
    ks=r.get('children',[])
    out.write('R %d %s\n'%(len(ks),' '.join(xs)))
    for k in ks: wref(k)
dirs=sorted({os.path.dirname(p) for p in glob.glob('/repo/tests/web_platform/**/data/*.json',recursive=True)})
cnt=Counter()
for dd in dirs:
    base=os.path.dirname(dd)
    ef=set(); ig=set()
    for f,s in (('not_implemented',ef),('not_compliant',ef),('not_valid',ig)):
        p=os.path.join(base,f)
        if os.path.exists(p): s.update('test_'+l.strip().replace('-','_') for l in open(p) if l.strip())
    groups=set()
    for t in glob.glob(base+'/test_*.py'):
        m=re.search(r'find_tests\(__file__, "([^"]*)"',open(t).read())
        if m: groups.add(m.group(1))
    for fn in sorted(os.listdir(dd)):
        name='test_'+os.path.splitext(fn)[0].replace('-','_')
        if name in ig: cnt['ignored']+=1; continue
        found=any(("-".join(fn.split("-")[:-1])==g[:-1]) if g.endswith('-') else ("-".join(fn.split(".")[:-1])==g) for g in groups)
        if not found: cnt['nogroup']+=1; continue
        if not os.path.exists(os.path.join(base,'ref',fn)): cnt['noref']+=1; continue
        d=json.load(open(os.path.join(dd,fn))); r=json.load(open(os.path.join(base,'ref',fn)))
        t=doc(d['test_case'])
        if t is None: cnt['none']+=1; continue
        exp=name not in ef; cnt['pass' if exp else 'fail']+=1
        out.write('X\n'); wdoc(t); wref(r)
        meta.append((base.replace('/repo/tests/web_platform/',''),fn,exp))
out.write('E\n'); out.close()
print(dict(cnt))

EXT = r'''From Coq Require Import ZArith QArith Qcanon Bool String Ascii List.
From Coq Require Import Extraction ExtrOcamlBasic ExtrOcamlString.
From Verif Require Import PyNum PyStr Units BoxModel Engine Values Choices Shorthand Decl DeclSpec Computed EngineExamples.
Import ListNotations.
Inductive sdoc := SDoc (st : list (string * string)) (ks : list sdoc).
Definition known (x : string * string) : bool := match prop_of_name (fst x) with Some _ => true | None => false end.
Fixpoint build (t : sdoc) : option (node css) :=
  match t with
  | SDoc st ks =>
      match update plain_order (map (fun x => (fst x, VStr (snd x))) (filter known st)) fresh_css first_free with
      | (c, _, Ok _) =>
          let ks' := map build ks in
          if forallb (fun o => match o with Some _ => true | None => false end) ks'
          then Some (Node c size0 (Some box0) (flat_map (fun o => match o with Some k => [k] | None => [] end) ks'))
          else None
      | _ => None
      end
  end.
Inductive rdoc := RDoc (q : list Q) (ks : list rdoc) | RText.
Definition near (q : Q) (n : num) : bool := let x := (q - this (nval n))%Q in Qle_bool x (1#20) && Qle_bool (-(1#20)) x.
Definition nearr (q : Q) (n : res num) : bool := match n with Ok n => near q n | Err _ => false end.
Fixpoint same (r : rdoc) (n : node css) {struct r} : bool :=
  match r, n with
  | RDoc [cw; ch; cx; cy; pw; ph; px; py; bw; bh; bx; by_] rs, Node _ _ (Some b) ks =>
      nearr cw (as_num (content_width b)) && nearr ch (as_num (content_height b)) && near cx (absolute_content_left b) && near cy (absolute_content_top b)
      && nearr pw (padding_box_width b) && nearr ph (padding_box_height b) && near px (absolute_padding_box_left b) && near py (absolute_padding_box_top b)
      && nearr bw (border_box_width b) && nearr bh (border_box_height b) && near bx (absolute_border_box_left b) && near by_ (absolute_border_box_top b)
      && (fix go (rs : list rdoc) (ks : list (node css)) {struct rs} : bool := match rs, ks with [], [] => true | r :: rs', k :: ks' => same r k && go rs' ks' | _, _ => false end) rs ks
  | _, _ => false
  end.
Definition fx (k : bkw) : num := match k with Thin => NI 1 | Medium => NI 5 | Thick => NI 10 end.
Definition disp : display_t := mkDisp (NI 96) (NI 1024) (NI 768) fx.
(* 0 pass, 1 wrong, 2 update raised, 3.. exception in layout *)
Definition code (e : exn) : nat := match e with TypeError => 3 | ValueError => 4 | ValidationError => 5 | AttributeError => 6 | IndexError => 7 | KeyError => 8 | NameError => 9 | OverflowError => 10 | NotImplementedError => 11 | PlainException => 12 | OutOfFuel => 13 | Unmodelled => 14 end.
Definition dead (c : css) : bool := match computed plain_order c with Some _ => false | None => true end.
Fixpoint anyd (n : node css) : bool := match n with Node c _ _ ks => dead c || existsb anyd ks end.
Definition check (t : sdoc) (r : rdoc) : nat :=
  match build t with
  | None => 2
  | Some n => if anyd n then 20 else match layout_css plain_order disp false n with
      | (n', Ok _) => if same r n' then 0 else 1
      | (_, Err e) => code e end
  end.
Definition mkq (n : Z) (d : positive) : Q := n # d.
Extraction "wpt.ml" check mkq.
'''
ML = r'''open Wpt
let rec pos n = if n = 1 then XH else if n land 1 = 1 then XI (pos (n lsr 1)) else XO (pos (n lsr 1))
let z n = if n = 0 then Z0 else if n > 0 then Zpos (pos n) else Zneg (pos (-n))
let rec nat = function O -> 0 | S n -> 1 + nat n
let unhex s = if s = "-" then [] else List.init (String.length s / 2) (fun i -> Char.chr (int_of_string ("0x" ^ String.sub s (2*i) 2)))
let ic = open_in "data.txt"
let words () = String.split_on_char ' ' (input_line ic)
let rec times n f = if n = 0 then [] else let x = f () in x :: times (n-1) f
let rec rdoc () = match words () with
  | ["N"; a; k] ->
    let st = times (int_of_string a) (fun () -> match words () with ["A"; x; y] -> (unhex x, unhex y) | _ -> failwith "A") in
    let ks = times (int_of_string k) rdoc in SDoc (st, ks)
  | _ -> failwith "N"
let q s = match String.split_on_char '/' s with [a; b] -> mkq (z (int_of_string a)) (pos (int_of_string b)) | _ -> failwith s
let rec rref () = match words () with
  | "R" :: k :: xs -> let l = List.map q xs in let ks = times (int_of_string k) rref in RDoc (l, ks)
  | ["T"] -> RText
  | _ -> failwith "R"
let rec loop i = match input_line ic with
  | "X" -> let d = rdoc () in let r = rref () in
    let c = (try nat (check d r) with Stack_overflow -> 99) in
    Printf.printf "%d %d\n%!" i c; loop (i+1)
  | _ -> ()
let () = loop 0
'''
open('ext.v','w').write(EXT); open('main.ml','w').write(ML)
subprocess.run(['coqc','-Q',THEORIES,'Verif','ext.v'],check=True,stdout=subprocess.DEVNULL,stderr=subprocess.DEVNULL)
os.remove('wpt.mli')
subprocess.run('ocamlfind ocamlopt -w -a wpt.ml main.ml -o wpt',shell=True,check=True,stderr=subprocess.DEVNULL)
res=[int(l.split()[1]) for l in subprocess.run(['./wpt'],check=True,stdout=subprocess.PIPE).stdout.decode().splitlines()]
NAMES={0:'as the reference',1:'other sizes or positions',2:'update() raises',3:'TypeError',6:'AttributeError',11:'NotImplementedError',12:'Exception'}
table=Counter((e,r) for (_,_,e),r in zip(meta,res))
for (e,r),k in sorted(table.items()): print('suite: %-6s model: %-26s %5d'%('passes' if e else 'fails',NAMES.get(r,r),k))
bad=[(m,r) for m,r in zip(meta,res) if m[2]!=(r==0)]
print('disagreements:',len(bad))
for x in bad: print(x)
