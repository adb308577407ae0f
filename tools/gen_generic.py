#!/usr/bin/env python3
"""Generates rocq/theories/Generic.v: the builders of Builders.v over any
implementation of the Buffer trait, by replacing the operations of the crate's
two buffers with those of an arbitrary implementation."""
import re,os
D=os.path.join(os.path.dirname(os.path.abspath(__file__)),"..","rocq","theories")
s=open(os.path.join(D,"Builders.v")).read()
s=s[s.index("(** ** The builder structs *)"):]
# what does not mention a buffer or a builder is shared with Builders.v
drop=["ether_op","v4_op","udp_op","tcp_op","echo_op","information_op","timestamp_op","ether_ip_finalizer","v4_finalizer","split_layers",
 "udp_builder_checksum","udp_finalizer","tcp_finalizer","icmp_finalizer","set_last"]
items=re.split(r"(?m)^(?=\(\*\*|Definition |Fixpoint |Inductive |Record )",s)
out=[];pend=[]
for it in items:
    if not it.strip(): continue
    if it.startswith("(**"): pend.append(it); continue
    m=re.match(r"(?:Definition|Fixpoint|Inductive|Record) (\w+)",it)
    n=m.group(1)
    if n in drop or n.endswith("_default"):
        # keep section titles, and the comment of a method list for its run1
        pend=[p for p in pend if p.startswith("(** **")] if not n.endswith("_op") else pend
        continue
    out+=pend; pend=[]
    out.append(it)
t="".join(out)
names=re.findall(r"(?m)^(?:Definition|Fixpoint) (\w+)",t)
t=t.replace("Record builder := {","Record gbuilder := {")
for f in ["b_buffer","b_fin","b_ip","b_kind","b_payload_length","b_payload"]:
    t=re.sub(rf"\b{f}\b","g"+f,t)
t=re.sub(r": buffer\b",": T",t).replace("buffer ->","T ->").replace("buffer * res","T * res")
t=re.sub(r": res buffer\b",": res T",t)
t=re.sub(r"\bbuilder\b(?!\.rs|s)(?=[\s\)])(?![^(]*\*\))","gbuilder",t) if False else t
# types
def types(block):
    if block.startswith("(**"): return block
    b=re.sub(r"(?<![\w/])builder(?![\w/.])","gbuilder",block)
    for op in ["next","more","offset","length","data","data_mut","into_inner"]:
        b=re.sub(rf"\bbuf_{op}\b",f"im_{op} I",b)
    for n in names: b=re.sub(rf"(?<![\w']){n}(?![\w'])","g"+n,b)
    return b
# operation constructors and field names must survive: names are all lower case functions
items=re.split(r"(?m)^(?=\(\*\*|Definition |Fixpoint |Inductive |Record )",t)
t="".join(types(x) for x in items)
t=t.replace("ggbuilder","gbuilder")
head='''(** * Generic: every builder over any implementation of [buffer::Buffer].

    Generated by tools/gen_generic.py from Builders.v: the same functions, with the
    operations of an arbitrary implementation [I] in place of those of the crate's
    two buffers.  In the crate the builders are generic over [B: Buffer]; the
    theorem c63_instance says that Builders.v is this file at the crate's buffers. *)
From Verif Require Import Base Enums Buffer Ether Ipv4 Ip Udp Tcp Icmp Builders.

(** The methods of the trait builders use (src/buffer/mod.rs:42-72); [T] is the type implementing it. *)
Record impl (T : Type) := Impl {
  im_into_inner : T -> res bytes;                          (* and as_mut() on the result *)
  im_next : env -> N -> T -> T * res unit;
  im_more : env -> N -> T -> T * res unit;
  im_offset : T -> N;
  im_length : T -> N;
  im_data : env -> T -> res bytes;
  im_data_mut : env -> mut -> T -> T * res unit }.          (* running [f] on data_mut() *)
Arguments im_into_inner {T} i. Arguments im_next {T} i. Arguments im_more {T} i. Arguments im_offset {T} i.
Arguments im_length {T} i. Arguments im_data {T} i. Arguments im_data_mut {T} i.
(** The crate's own implementations: src/buffer/dynamic.rs:35-85, src/buffer/slice.rs:42-107 *)
Definition crate_impl : impl buffer := Impl buffer buf_into_inner buf_next buf_more buf_offset buf_length buf_data buf_data_mut.

Section Generic.
Context {T : Type} (I : impl T).

'''
open(os.path.join(D,"Generic.v"),"w").write(head+t.rstrip()+"\nEnd Generic.\n")
