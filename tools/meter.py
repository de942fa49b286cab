"""Parser.v -> Meter.v.  Usage: meter.py THEORIES_DIR"""
import re, sys
src=open(sys.argv[1]+'/Parser.v').read()
lines=src.split('\n')
# split into items: comment blocks attached to following item
items=[];cur=[];
START=re.compile(r'^\s{0,2}(Definition|Fixpoint|Record|Inductive|Section|End|Variable|Notation|From)\b')
pend=[]; i=0
depth=0
for l in lines:
    st=START.match(l) and depth==0
    opens=l.count('(*'); closes=l.count('*)')
    if depth==0 and (st or re.match(r'^\s{0,2}\(\*',l)):
        if cur: items.append(cur)
        cur=[l]
    else: cur.append(l)
    depth+=opens-closes
items.append(cur)
out=[];comment=[]
for it in items:
    t='\n'.join(it)
    if t.lstrip().startswith('(*') and not re.search(r'^\s*(Definition|Fixpoint)',t,re.M):
        comment.append(t.rstrip()); continue
    m=START.match(it[0])
    kind=m.group(1) if m else '?'
    name=t.split()[1].rstrip(':.') if m else ''
    head=t.split(':=')[0]
    keep=False
    if kind in('Section','End','Variable'): keep=True
    if kind in('Definition','Fixpoint') and re.search(r':\s*M\b',head): keep=True
    if name in('knot_of','parse_with','parse','knot'): keep=True
    PR={'ret','fail','panic','nofuel','bind','get','lift','text','len_chars','intern','res_','modify','run_w','render','M','memorize_identifier','demangle_locally_scoped_name_piece'}
    if keep and name not in PR: out.append(('\n'.join(comment)+'\n' if comment else '')+t.rstrip())
    elif keep and name in PR: out.append('(*PRIM %s*)'%name)
    comment=[]
body='\n'.join(out)
prim={}
prim['ret']='''(** ** The meter *)
(** One rendering made while parsing (/repo/src/demangler.rs:1115-1123, 1781-1792): how many nodes
    there were, how many bytes it wrote, how many nodes it visited (as in Effort.v), and whether it
    came to an end (rather than to the output limit). *)
Record event := mkEvent { ev_nodes : nat; ev_bytes : nat; ev_visits : N; ev_done : bool }.
(** The number of operations of the parser, its renderings, and the characters it examined in searches. *)
Record meter := mkMeter { ops : nat; shown : list event; scanned : nat }.
Definition m_zero : meter := mkMeter 0 [] 0.
Definition m_one : meter := mkMeter 1 [] 0.
Definition m_add (a b : meter) : meter := mkMeter (ops a + ops b) (shown a ++ shown b) (scanned a + scanned b).

(** ** The metered monad *)
(** As [Parser.M], with a meter that survives errors.  Every primitive operation (a look at the
    text, an attempt to consume, an allocation, a resolution or update of a node, an access to the
    tables, a write) and every sequencing of two computations counts one. *)
Definition M A := st -> res (A * st) * meter.
Definition op {A} (f : st -> res (A * st)) : M A := fun s => (f s, m_one).
Definition op_n {A} (n : nat) (f : st -> res (A * st)) : M A := fun s => (f s, mkMeter n [] 0).
Definition ret {A} (a : A) : M A := fun s => (Ok (a, s), m_zero).'''
prim['fail']='Definition fail {A} (e : error) : M A := fun _ => (Err e, m_zero).'
prim['panic']='Definition panic {A} : M A := fun _ => (Panic, m_zero).'
prim['nofuel']='Definition nofuel {A} : M A := fun _ => (Fuel, m_zero).'
prim['bind']='''Definition bind {A B} (m : M A) (f : A -> M B) : M B := fun s =>
  let (r, c) := m s in
  match r with
  | Ok (a, s') => let (r', c') := f a s' in (r', m_add m_one (m_add c c'))
  | Err e => (Err e, c)
  | Panic => (Panic, c)
  | Fuel => (Fuel, c)
  end.
Notation "x <- m ;; k" := (bind m (fun x => k)) (at level 100, m at next level, right associativity).
Notation "' p <- m ;; k" := (bind m (fun x => match x with p => k end))
  (at level 100, p pattern, m at next level, right associativity).
Notation "m ;;; k" := (bind m (fun _ => k)) (at level 100, right associativity).
'''
prim['get']='Definition get : M st := op Parser.get.\nDefinition update (f : st -> st) : M unit := op (fun s => let s := f s in Ok (tt, s)).'
prim['lift']='Definition lift {A} (f : mstring -> mres A) : M (option A) := op (Parser.lift f).'
prim['text']='Definition text : M str := op Parser.text.'
prim['len_chars']='Definition len_chars : M nat := op Parser.len_chars.'
prim['intern']='''(** The handles copied into the arena together with a node: only node arrays hold a slice
    ([allocate_slice], /repo/src/alloc.rs:28-35). *)
Definition slots (n : node) : nat := match n with NNodes l => length l | _ => 0 end.
(** [NodeCache::intern], [resolve], [resolve_mut], /repo/src/cache.rs:306-375.  An allocation counts one
    for the node and one for every handle copied. *)
Definition intern (E : env) (n : node) : M handle := op_n (1 + slots n) (Parser.intern E n).'''
prim['text']+='''
(** The characters a search for [c] examines ([find_char], /repo/src/mangled_string.rs:99-106): up to
    and including the first [c], or all.  Where a name is taken they are counted twice, as the
    characters taken are counted again to keep the length in characters (64-71). *)
Fixpoint reach (c : N) (s : str) : nat :=
  match s with
  | [] => 0
  | x :: r => if (x =? c)%N then 1 else S (reach c r)
  end.
(** The characters the test for a local scope examines (/repo/src/mangled_string.rs:128-137, 145-191):
    behind a ['?'] it searches the next one, and passes over what lies between three times more (two
    slices are taken, and the digits examined).  (Its look at the first character is counted as an
    operation.) *)
Definition reach_scope (s : str) : nat :=
  match s with
  | q :: r => if (q =? ch "?")%N then 4 * reach (ch "?") r else 0
  | [] => 0
  end.
Definition scan (n : nat) : M unit := fun s => (Ok (tt, s), mkMeter 0 [] n).'''
prim['res_']='Definition res_ (k : kind) (h : handle) : M node := op (Parser.res_ k h).'
prim['modify']='Definition modify (k : kind) (h : handle) (f : node -> node) : M unit := op (Parser.modify k h f).'
prim['run_w']='  Definition run_w (w : W) (b : buf) : M buf := op (Parser.run_w w b).'
prim['render']='''  (** What a rendering costs: [w] given the counting printer instead of the printer. *)
  Definition run_event (w : (kind -> handle -> W) -> W) (sg : store) : event :=
    let '(b, r) := w (out_ticking (S (length sg)) E sg OFull) (mkBuf [] (e_out E)) in
    mkEvent (length sg) (length (b_bytes b)) (b_cap b - e_out E) (match r with Ok _ => true | _ => false end).
  (** Render into a fresh local buffer and take its text (1115-1123, 1781-1792). *)
  Definition show_event (w : (kind -> handle -> W) -> W) : M unit :=
    fun s => (Ok (tt, s), mkMeter 0 [run_event w (s_store s)] 0).
  Definition render (w : (kind -> handle -> W) -> W) : M str :=
    show_event w ;;;
    s <- get ;; b <- run_w (w (output E (s_store s))) (mkBuf [] 0) ;; take_text b.'''
prim['memorize_identifier']='''  (** [memorize_identifier], 1112-1124. *)
  Definition memorize_identifier (id : handle) : M unit :=
    name <- render (fun out => out KIdent id) ;;
    memorize_string name.'''
prim['demangle_locally_scoped_name_piece']='''  (** [demangle_locally_scoped_name_piece], 1767-1794. *)
  Definition demangle_locally_scoped_name_piece : M handle :=
    expect_char (ch "?") InvalidLocallyScopedNamePiece ;;;
    '(number, neg) <- demangle_number ;;
    if neg : bool then fail InvalidLocallyScopedNamePiece
    else
      expect_char (ch "?") InvalidLocallyScopedNamePiece ;;;
      scope <- k_parse K ;;
      name <- render (fun out => w_str E (L "`") >> out KSym scope >>
                                w_str E (L "'::`" ++ dec_N number ++ L "'")) ;;
      intern E (NNamed None name).'''
def f(m): return prim[m.group(1)]
b=re.sub(r'\(\*PRIM (\w+)\*\)',f,body)
b=re.sub(r'\(fun s => Ok \(tt, (.*)\)\)( ;;;|\.)',r'update (fun s => \1)\2',b)
b=b.replace('| _ => fun s => Ok (tt, if length (s_fps s) <? 10 then set_fps (s_fps s ++ [tn]) s else s)','| _ => update (fun s => if length (s_fps s) <? 10 then set_fps (s_fps s ++ [tn]) s else s)')
b=b.replace('(s : str) : res (handle * st) :=','(s : str) : res (handle * st) * meter :=')
b,k=re.subn(r'( *)(\w+) <- ok_or \(find_char \(ch "@"\) s\)',r'\1scan (2 * reach (ch "@") s) ;;;\n\1\2 <- ok_or (find_char (ch "@") s)',b)
assert k==4
b,k=re.subn(r'( *)match local_scope_pattern s with',r'\1scan (reach_scope s) ;;;\n\1match local_scope_pattern s with',b)
assert k==1
hdr='''(** The parser of Parser.v over a metered monad: the same functions of /repo/src/demangler.rs (the
    line numbers below are of that file), with a count of what they do.  Generated from Parser.v by
    tools/meter.py; Metered.v proves that, the meter aside, every function is the function of the same
    name there. *)
From Verif Require Import Parser Effort.

'''
open(sys.argv[1]+'/Meter.v','w').write(hdr+b+'\n')
