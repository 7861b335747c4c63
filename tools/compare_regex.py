#!/usr/bin/env python3
# Prints a Coq file that compares the regular expressions of Patterns.v and the matcher of Regex.v with the re module on random texts.
# Use: tools/compare_regex.py SEED COUNT > X.v; coqc -Q theories Verif X.v   (in rocq/; each result must end in an empty list)
import re, random, ast, json, sys
from itertools import permutations
I=re.IGNORECASE
seed=int(sys.argv[1]); n=int(sys.argv[2]); random.seed(seed)
PAR=r"[{}\w:\s,'\"\.\[\]@]+"
def hl(n,req): return rf"(?P<{n}_handle>\w*)\s*:{'' if req else '?'}\s*(?P<{n}_label>\w{'+' if req else '*'})"
def node(n): return rf"\s*(?P<{n}_node>\(\s*{hl(n+'_node',True)}\s*(?P<{n}_node_props>{PAR})?\s*\)\s*)"
def rel(n): return rf"\s*(?P<{n}_rel><?-+\[\s*{hl(n+'_rel',False)}\s*(?P<{n}_rel_props>{PAR})?\s*]-+>?\s*)"
NR=re.compile(node('left')+'?'+rel('left_middle')+'?'+node('middle')+'?'+rel('middle_right')+'?'+node('right')+'?',I)
PR=re.compile(r"(?P<property_name>\w+)\s*:\s*(?P<property_value>(?P<none_type>null)|(?P<bool_type>true|false)|"
        r"(?P<float_type>\d+\.\d+)|(?P<int_type>[0-9]+)|(?P<list_type>\[[\w,\s'\"\.@\+]+\])|"
        r"(?P<string_type>[\w+\'\"@\.\s]+))",I)
CP=re.compile(r"(?P<all_props>{[\w:\s,'\"\.\[\]@]+})",I)
LV=re.compile(r"(?P<list_value>\[[\w,\s'\"\.@]+])",I)
RD=re.compile(rf"(?P<foo><?-+\[\s*\w*\s*:?\s*(?P<rel_name>\w*)\s*{PAR}-+>?)",I)
MS=re.compile(r"(?P<clause_stmt_all>(MAKE|make)\s*\(.+\);)",I)
RS=re.compile(r"(?P<report_stmt_all>(REPORT|report).+;)",I)
MC=re.compile(r"\s?(?P<clause_syntax_error>"+"|".join("".join(x) for x in permutations("MAKE"))+r")\s?\(",I)
RC=re.compile(r"(?P<report_stmt_all>("+"|".join("".join(x) for x in permutations("REPORT"))+r").+;)",I)
def S(s): return "[" + ";".join(str(ord(c)) for c in s) + "]%N"
def O(s): return "None" if s is None else f"(Some {S(s)})"
def L(l): return "[" + ";".join(l) + "]"
def pick(toks,k): return "".join(random.choice(toks) for _ in range(random.randint(0,k)))
T1=["(","a",":","B",")","-","[","]","->","<-","-"," ","(:A)","-[:R]->","{x:1}","(b:C{x: 'y'})","--","<","-[r:S{a:1}]->","\t",",","'","1",".","\n","_","]-","-[","(x :","@"]
T2=["a",":","x: ","null","true","False","1","2.5",".","3."," ","[1, 2]","[","]","'","\"","b","y:","NULL","+","@",",","\t","k : ","[true","'s'","12"]
T3=["make","MAKE","Mkae","aMEK","(","(",");",");",";",")","\n"," ","\r","x",":A","REPORT","report","trope","TROPER","r",".","\t","M","AKE","eporTr"]
out=[]
def case(fn,exp): out.append(f"({fn}, {exp})")
for _ in range(n):
    s=pick(T1,14)
    names=[]
    for p in ['left_node','left_middle_rel','middle_node','middle_right_rel','right_node']:
        names+= [p,p+'_handle',p+'_label',p+'_props']
    exp=L([f"({S(m.group())}, {L([O(m.group(x)) for x in names])})" for m in NR.finditer(s)])
    case(f"nr {S(s)}",exp.replace(";(",";\n("))
    exp=L([f"({S(m.group())}, {L([O(m.group('foo')),O(m.group('rel_name'))])})" for m in RD.finditer(s)])
    case(f"rd {S(s)}",exp)
    s2=s+pick(T2,6)
    case(f"cp {S(s2)}",L([f"({S(m.group())}, [])" for m in CP.finditer(s2)]))
    s=pick(T2,12)
    names=['property_name','property_value','none_type','bool_type','float_type','int_type','list_type','string_type']
    case(f"pr {S(s)}",L([f"({S(m.group())}, {L([O(m.group(x)) for x in names])})" for m in PR.finditer(s)]))
    case(f"lvsub {S(s)}",f"[({S(LV.sub('',s))}, [])]")
    s=pick(T3,12)
    case(f"ms {S(s)}",L([f"({S(m.group())}, [])" for m in MS.finditer(s)]))
    case(f"rs {S(s)}",L([f"({S(m.group())}, [])" for m in RS.finditer(s)]))
    case(f"mc {S(s)}",L([f"({S(m.group())}, {L([O(m.group(1))])})" for m in MC.finditer(s)]))
    if random.random()<0.1: case(f"rc {S(s)}",L([f"({S(m.group())}, {L([O(m.group(2))])})" for m in RC.finditer(s)]))
    s=pick(T1,12)
    case(f"sp {S(s)}",L([f"({S(x)}, [])" for x in re.split(r"[<>]+",s)]))
print("""From Verif Require Import PyBase Regex Patterns AsciiRt.
Definition gs (l : list gname) (r : re) (s : pystr) := map (fun m => (fst m, map (fun n => cap n (snd m)) l)) (finditer r s).
Definition all4 p := [GP p Whole; GP p Handle; GP p Label; GP p Props].
Definition nr := gs (all4 PLeft ++ all4 PLeftMiddle ++ all4 PMiddle ++ all4 PMiddleRight ++ all4 PRight) (@nodes_rels ascii_rt).
Definition rd := gs [GRelWhole; GRelName] (@rel_dir_check ascii_rt).
Definition cp := gs [] (@check_properties ascii_rt).
Definition pr := gs [GPropName; GPropValue; GNone; GBool; GFloat; GInt; GList; GString] (@all_properties ascii_rt).
Definition lvsub (s : pystr) : list (pystr * list (option pystr)) := [(sub_empty (@list_value ascii_rt) s, [])].
Definition ms := gs [] (@make_stmt_all ascii_rt).
Definition rs := gs [] (@report_stmt_all ascii_rt).
Definition mc := gs [GKeyword] (@make_check_syntax ascii_rt).
Definition rc := gs [GKeyword] (@report_check_syntax ascii_rt).
Definition sp (s : pystr) : list (pystr * list (option pystr)) := map (fun x => (x, [])) (split_re arrow_heads s).
Fixpoint leqb {A} (e : A -> A -> bool) a b := match a, b with [], [] => true | x::a, y::b => e x y && leqb e a b | _, _ => false end.
Definition oeqb (a b : option pystr) := match a, b with None, None => true | Some x, Some y => str_eqb x y | _, _ => false end.
Definition req (a b : list (pystr * list (option pystr))) := leqb (fun x y => str_eqb (fst x) (fst y) && leqb oeqb (snd x) (snd y)) a b.
Definition cases : list (list (pystr * list (option pystr)) * list (pystr * list (option pystr))) := [""")
print(";\n".join(out))
print("].\nFixpoint bad {A} i (l : list (A*A)) (e : A -> A -> bool) : list nat := match l with [] => [] | (x,y)::l => (if e x y then [] else [i]) ++ bad (S i) l e end.")
print(f"Eval vm_compute in (length cases, bad 0%nat cases req).")
