#!/usr/bin/env python3
# Prints a Coq file that compares Literal.v, Json.v and py_int with ast.literal_eval, json and int on random texts.
# (the floats NaN and Infinity are left out: the model names them as json writes them)
# Use: tools/compare_values.py SEED COUNT > X.v; coqc -Q theories Verif X.v   (in rocq/; each result must end in an empty list)
import random, ast, json, sys, warnings
warnings.simplefilter("ignore")
seed=int(sys.argv[1]); n=int(sys.argv[2]); random.seed(seed)
def S(s): return "[" + ";".join(str(ord(c)) for c in s) + "]%N"
class Skip(Exception): pass
def V(v):
    if v is None: return "VNone"
    if v is True or v is False: return f"(VBool {str(v).lower()})"
    if isinstance(v,int): return f"(VInt ({v})%Z)"
    if isinstance(v,float): return f"(VFloat {S(repr(v))})"
    if isinstance(v,str): return f"(VStr {S(v)})"
    if isinstance(v,list): return "(VList ["+";".join(V(x) for x in v)+"])"
    if isinstance(v,dict): return "(VDict ["+";".join(f"({S(k)},{V(x)})" for k,x in v.items())+"])"
    raise Skip
def pick(toks,k): return "".join(random.choice(toks) for _ in range(random.randint(0,k)))
TL=["1","2.5",",",", ","'a'","\"b\""," ","True","False","None","x","'","\"","\t","\n",",","7","and","1x","0","00","01","_","'c d'","@",".","'1'\"2\"","if","''","0x1","1e3",",","'a.b@c'"]
TJ=["{","}","[","]",",",":","\"a\"","\"b\"","1","-","0","2.5","true","false","null"," ","\n","\"","\\","\"\\u0041\"","\"\\n\"","1.","NaN","Infinity","\"k\": ","01","x","\t","\"\\ud83d\\ude00\"","\"\\ud83d\"","\\u12","\"é\"","\"\t\""]
TI=["1","0","9","_","-","+"," ","\n","x","12","\t","__"]
lit=[];js=[];it=[];dm=[]
for _ in range(n):
    s="["+pick(TL,7)+"]"
    try:
        e=f"Ok {V(ast.literal_eval(s))}"
    except Skip: e=None
    except SyntaxError: e="Err SyntaxError"
    except ValueError: e="Err ValueError"
    except Exception as x: e="Err "+type(x).__name__
    if e: lit.append(f"({S(s)}, {e})")
    s=pick(TJ,8) if random.random()<.5 else json.dumps([1,{"a":None},"x"])[:random.randint(0,20)]+pick(TJ,3)
    try: e=f"(Some {V(json.loads(s))})"
    except json.JSONDecodeError: e="None"
    except Skip: continue
    if not any(x in s for x in ("NaN","Infinity")): js.append(f"({S(s)}, {e})")
    s=pick(TI,5)
    try: e=f"Ok ({int(s)})%Z"
    except ValueError: e="Err ValueError"
    it.append(f"({S(s)}, {e})")
    def rv(d):
        r=random.random()
        if d==0 or r<.5: return random.choice([None,True,False,0,-5,123456789012345678901,2.5,"","a\"b\\c","\n\t\r\b\f\x00\x7f/","é\u20ac\U0001f600\ud800","x"])
        if r<.75: return [rv(d-1) for _ in range(random.randint(0,3))]
        return {random.choice("abcdé")+str(i):rv(d-1) for i in range(random.randint(0,3))}
    v=rv(3)
    dm.append(f"({V(v)}, ({S(json.dumps(v))}, {S(json.dumps(v,indent=4))}))")
print("""From Verif Require Import PyBase Json Literal AsciiRt Store.
Definition rt2 : PyRt := {|
  u_word := fun _ => false; u_space := fun _ => false; u_digit := fun _ => false;
  u_upper := fun _ => false; u_lowertitle := fun _ => false; u_lower := fun c => [c];
  u_upcase := fun c => [c];
  u_ci := fun _ => None;
  f_repr := ascii_f_repr; int_ext := fun _ => None; int_fits := fun n => N.leb n 4300; lit_ext := fun _ => Err OutOfFuel;
  set_order := fun l => l; zset_order := fun l => l; set_mixed := set_mixed (PyRt := ascii_rt); import_time := py "1700000000.5" |}.
Definition res_dec {A} (d : forall a b : A, {a=b}+{a<>b}) : forall a b : res A, {a=b}+{a<>b}.
Proof. repeat decide equality. Defined.
Fixpoint veqb (a b : pyval) : bool :=
  match a, b with
  | VNone, VNone => true | VBool x, VBool y => Bool.eqb x y | VInt x, VInt y => Z.eqb x y | VFloat x, VFloat y => str_eqb x y | VStr x, VStr y => str_eqb x y
  | VList x, VList y => (fix go x y := match x, y with [], [] => true | a::x, b::y => veqb a b && go x y | _, _ => false end) x y
  | VDict x, VDict y => (fix go (x y : list (pystr * pyval)) := match x, y with [], [] => true | (k,a)::x, (k2,b)::y => str_eqb k k2 && veqb a b && go x y | _, _ => false end) x y
  | _, _ => false end.
Definition exn_dec : forall a b : exn, {a=b}+{a<>b}. Proof. decide equality. Defined.
Definition exeq a b : bool := if exn_dec a b then true else false.
Definition req (a b : res pyval) := match a, b with Ok x, Ok y => veqb x y | Err OutOfFuel, _ => true | Err x, Err y => exeq x y | _, _ => false end.
Definition zeq (a b : res Z) := match a, b with Ok x, Ok y => Z.eqb x y | Err x, Err y => exeq x y | _, _ => false end.
Definition oeq (a b : option pyval) := match a, b with Some x, Some y => veqb x y | None, None => true | _, _ => false end.
Fixpoint bad {A} i (l : list A) (e : A -> bool) : list nat := match l with [] => [] | x::l => (if e x then [] else [i]) ++ bad (S i) l e end.
Open Scope N_scope.
""")
def deff(nm,ty,l): print(f"Definition {nm} : list ({ty}) := [\n"+";\n".join(l)+"].")
deff("lits","pystr * res pyval",lit); deff("jsons","pystr * option pyval",js); deff("ints","pystr * res Z",it); deff("dumps","pyval * (pystr * pystr)",dm)
print("""Eval vm_compute in (length lits, length (filter (fun x => match @literal_eval rt2 (fst x) with Err OutOfFuel => true | _ => false end) lits), bad 0%nat lits (fun x => req (@literal_eval rt2 (fst x)) (snd x))).
Eval vm_compute in (length jsons, bad 0%nat jsons (fun x => oeq (@loads rt2 (fst x)) (snd x))).
Eval vm_compute in (length ints, bad 0%nat ints (fun x => zeq (@py_int rt2 (fst x)) (snd x))).
Eval vm_compute in (length dumps, bad 0%nat dumps (fun x => str_eqb (dump_text Compact (fst x)) (fst (snd x)) && str_eqb (dump_text Indent4 (fst x)) (snd (snd x)))).
""")
