#!/usr/bin/env python3
"""Generates rocq/theories/Enums.v from the enum conversion tables in /repo
(pure transcription of the match arms; line numbers are recorded)."""
import re,os
R="/repo/src/"
def arms(path,start_pat,nth=0):
    """returns (arms, first line, last line) of the match in the fn following start_pat"""
    L=open(R+path).read().split("\n")
    idx=[i for i,l in enumerate(L) if re.search(start_pat,l)][nth]
    out=[];i=idx
    while "match " not in L[i]: i+=1
    i+=1; depth=1; first=idx+1
    while True:
        l=L[i]
        if re.match(r"^\t\t}\s*$",l): break
        m=re.match(r"^\s*(\S+(?:\(\w+\))?)\s*=>\s*(.*?),\s*$",l)
        if m: out.append((m.group(1),m.group(2)))
        i+=1
    return out,first,i+3
def num(s): return str(int(s,0))
O=["(** * Enums: every number/enum conversion of the crate.",
"    Generated by tools/gen_enums.py from the match arms in /repo (one arm per line,",
"    same order); the arms are a literal transcription. *)",
"From Verif Require Import Base.",""]
def enum(coq,pre,path,enum_name,frm,into,nth_from=0,fallback="Unknown"):
    a,f0,f1=arms(path,frm,nth_from)
    b,b0,b1=arms(path,into,0)
    clean=lambda s:re.sub(r"^(Number|Class|Self)::","",s)
    names=[clean(v) for k,v in a if re.match(r"^(0x)?[0-9a-f]+$",k)]
    L=open(R+path).read().split("\n")
    e0=[i for i,l in enumerate(L) if re.match(rf"^pub enum {enum_name} ",l)][0]
    e1=[i for i,l in enumerate(L) if i>e0 and l.startswith("}")][0]
    O.append(f"(** src/{path}:{e0+1}-{e1+1}: enum {enum_name} *)")
    O.append(f"Inductive {coq} :=")
    seen=[]
    for n in names:
        if n not in seen: seen.append(n)
    for n in seen: O.append(f"| {pre}{n}")
    O.append(f"| {pre}{fallback} (n : N).")
    O.append("")
    O.append(f"(** src/{path}:{f0}-{f1} (From) *)")
    O.append(f"Definition {coq}_from (value : N) : {coq} :=")
    O.append("  match value with")
    for k,v in a:
        if re.match(r"^(0x)?[0-9a-f]+$",k): O.append(f"  | {num(k)} => {pre}{clean(v)}")
        else: O.append(f"  | _ => {pre}{fallback} value")
    O.append("  end.")
    O.append("")
    O.append(f"(** src/{path}:{b0}-{b1} (Into) *)")
    O.append(f"Definition {coq}_into (self : {coq}) : N :=")
    O.append("  match self with")
    for k,v in b:
        k=clean(k)
        m=re.match(r"^(\w+)\((\w+)\)$",k)
        if m: O.append(f"  | {pre}{m.group(1)} n => n")
        else: O.append(f"  | {pre}{k} => {num(v)}")
    O.append("  end.")
    O.append("")
enum("ip_protocol","IP_","ip/protocol.rs","Protocol",r"^impl From<u8> for Protocol",r"^impl Into<u8> for Protocol")
enum("ether_protocol","ET_","ether/protocol.rs","Protocol",r"^impl From<u16> for Protocol",r"^impl Into<u16> for Protocol")
enum("icmp_kind","K_","icmp/kind.rs","Kind",r"^impl From<u8> for Kind",r"^impl Into<u8> for Kind")
enum("dest_unreachable","DU_","icmp/code.rs","DestinationUnreachable",r"^impl From<u8> for Dest",r"^impl Into<u8> for Dest")
enum("redirect_code","RC_","icmp/code.rs","RedirectMessage",r"^impl From<u8> for Redirect",r"^impl Into<u8> for Redirect")
enum("param_code","PC_","icmp/code.rs","ParameterProblem",r"^impl From<u8> for Param",r"^impl Into<u8> for Param")
enum("v4opt_number","ON_","ip/v4/option.rs","Number",r"^impl From<u8> for Number",r"^impl Into<u8> for Number")
enum("tcpopt_number","TN_","tcp/option.rs","Number",r"^impl From<u8> for Number",r"^impl Into<u8> for Number")
O+=["""(** src/ip/v4/option.rs:46-55: enum Class *)
Inductive v4opt_class := OC_Control | OC_Debugging | OC_Reserved (n : N).

(** src/ip/v4/option.rs:256-268 (From); panics above 3. *)
Definition v4opt_class_from (value : N) : res v4opt_class :=
  match value with
  | 0 => Ok OC_Control
  | 1 => Ok (OC_Reserved 1)
  | 2 => Ok OC_Debugging
  | 3 => Ok (OC_Reserved 3)
  | _ => Panic
  end.

(** src/ip/v4/option.rs:270-278 (Into) *)
Definition v4opt_class_into (self : v4opt_class) : N :=
  match self with
  | OC_Control => 0
  | OC_Debugging => 2
  | OC_Reserved n => n
  end.
"""]
open(os.path.join(os.path.dirname(os.path.abspath(__file__)),"../rocq/theories/Enums.v"),"w").write("\n".join(O))
