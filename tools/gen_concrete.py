#!/usr/bin/env python3
"""Generates rocq/theories/Concrete.v: concrete Unicode tables for U+0000..U+024F (Python's unicodedata) and an environment."""
import unicodedata as ud
N=0x250
def one(f,c):
    r=f(chr(c)); return ord(r) if len(r)==1 else c
low=[(c,one(str.lower,c)) for c in range(128,N) if one(str.lower,c)!=c]
upp=[(c,one(str.upper,c)) for c in range(128,N) if one(str.upper,c)!=c]
L=[c for c in range(128,N) if ud.category(chr(c))[0]=='L']
def ranges(l):
    out=[]
    for c in l:
        if out and out[-1][1]==c-1: out[-1][1]=c
        else: out.append([c,c])
    return out
LR=ranges(L)+[[0x3400,0x9fff]]
Nn=[c for c in range(128,N) if ud.category(chr(c))[0]=='N']
dec=[];decn=[]
for c in range(128,N):
    d=ud.normalize('NFKC',''.join(x for x in ud.normalize('NFKD',chr(c)) if ud.category(x)!='Mn'))
    if d!=chr(c): decn.append((c,[ord(x) for x in d]))
    d=ud.normalize('NFKC',ud.normalize('NFKD',chr(c)))
    if d!=chr(c): dec.append((c,[ord(x) for x in d]))
def pl(l): return '['+'; '.join('(%d, %s)'%(a,'[%s]'%'; '.join(map(str,b)) if isinstance(b,list) else b) for a,b in l)+']'
def rl(l): return '['+'; '.join('(%d, %d)'%tuple(x) for x in l)+']'
open('/verif/rocq/theories/Concrete.v','w').write('''(** Generated by tools/gen_concrete.py. A concrete environment, used only to show that hypotheses can be met and to
    refute claims: the Unicode tables are those of U+0000..U+024F and the letters of U+3400..U+9FFF (other code points are treated as caseless,
    category-less and normalised). *)
From Verif Require Import GoBase Civil GoTime Regex Timezone Env.

Definition assoc_z {A} (d : A) (l : list (Z * A)) (c : Z) : A :=
  match List.find (fun p => fst p =? c) l with Some p => snd p | None => d end.
Definition low_tab : list (Z * Z) := %s.
Definition upp_tab : list (Z * Z) := %s.
Definition let_tab : list (Z * Z) := %s.
Definition num_tab : list (Z * Z) := %s.
Definition nfkc_tab : list (Z * list Z) := %s.
Definition nomn_tab : list (Z * list Z) := %s.
Definition lower0 (c : Z) : Z := if c <? 128 then lowerA c else assoc_z c low_tab c.
Definition upper0 (c : Z) : Z := if c <? 128 then upperA c else assoc_z c upp_tab c.
Definition map_runes (f : Z -> list Z) (s : str) : str := if is_ascii s then s else encode (flat_map f (runes s)).
Definition uni0 : uni :=
  {| u_lower := lower0; u_upper := upper0; u_fold := lower0;
     u_isL := fun c => is_alphaA c || in_ranges let_tab c;
     u_isM := fun c => (768 <=? c) && (c <=? 879);
     u_isN := fun c => is_digitA c || in_ranges num_tab c;
     u_isNd := is_digitA;
     u_nfkc := map_runes (fun c => assoc_z [c] nfkc_tab c);
     u_nfkd_noMn_nfkc := map_runes (fun c => if (768 <=? c) && (c <=? 879) then [] else assoc_z [c] nomn_tab c) |}.

(** 2026-11-17T22:17:00Z as the clock, UTC as the local zone *)
Definition env0 : env :=
  {| e_now := {| t_sec := 1794953820; t_nsec := 0; t_loc := utc |}; e_local := utc; e_uni := uni0;
     e_tz := tz_source_order; e_wd_first := true |}.

Lemma uni0_ascii : uni_ascii uni0.
Proof.
  assert (A : forall c, 0 <= c < 128 -> c <? 128 = true) by (intros; apply Z.ltb_lt; lia).
  assert (R : forall l, forallb (fun p => 128 <=? fst p) l = true -> forall c, 0 <= c < 128 -> in_ranges l c = false).
  { intros l Hl c Hc. unfold in_ranges. induction l as [|p l IH]; [reflexivity|].
    cbn [forallb existsb] in *. apply andb_true_iff in Hl as [H1 H2]. apply Z.leb_le in H1.
    rewrite (IH H2). replace (fst p <=? c) with false; [reflexivity|]. symmetry. apply Z.leb_gt. lia. }
  split; cbn [u_lower u_upper u_fold u_isL u_isM u_isN u_isNd u_nfkc u_nfkd_noMn_nfkc uni0].
  - intros. unfold lower0. now rewrite A.
  - intros. unfold upper0. now rewrite A.
  - vm_compute. reflexivity.
  - intros. unfold lower0. now rewrite A.
  - intros c Hc Hx. unfold lower0. replace (c <? 128) with false by (symmetry; apply Z.ltb_ge; lia). unfold assoc_z.
    destruct (List.find _ low_tab) as [p|] eqn:F; [|lia]. apply find_some in F as [Hi Hp]. apply Z.eqb_eq in Hp.
    assert (T : forallb (fun p => (128 <=? snd p) || existsb (Z.eqb (fst p)) [304; 383; 8490]) low_tab = true) by (vm_compute; reflexivity).
    rewrite forallb_forall in T. specialize (T p Hi). rewrite Hp, Hx, orb_false_r in T. now apply Z.leb_le.
  - intros. rewrite R; auto. apply orb_false_r.
  - intros. apply andb_false_iff. left. apply Z.leb_gt. lia.
  - intros. rewrite R; auto. apply orb_false_r.
  - reflexivity.
  - intros s Hs. unfold map_runes. now rewrite Hs.
  - intros s Hs. unfold map_runes. now rewrite Hs.
Qed.
''' % (pl(low),pl(upp),rl(LR),rl(ranges(Nn)),pl(dec),pl(decn)))
