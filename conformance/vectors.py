"""Turns the test vectors of /repo/tests into a Coq file that evaluates the model on them.

usage: vectors.py DIR   (writes DIR/Conf.v and DIR/names.json)
Signatures are checked here, by sigcheck.py; the model is given a table of the triples that passed.
"""
import re,base64,hashlib,os,json,sys
from sigcheck import *
OUT=sys.argv[1]+'/'
T='/repo/tests/'
def rd(f): return open(T+f,'rb').read()
# ---- ssh wire, independent
class R:
    def __init__(s,b): s.b=b;s.i=0
    def u(s,n):
        v=s.b[s.i:s.i+n]
        if len(v)<n: raise ValueError
        s.i+=n; return v
    def s(s): return s.u(int.from_bytes(s.u(4),'big'))
    def rest(s): return s.b[s.i:]
ver=[] # (kind, key..., msg, sig)
hashes={'sha256':set(),'sha384':set(),'sha512':set()}
def H(a,b): hashes[a].add(bytes(b)); return hashlib.new(a,b).digest()
def check(keyblob,sigblob,msg):
    try:
        k=R(keyblob);kt=k.s()
        g=R(sigblob);alg=g.s()
        if kt==b'ssh-ed25519':
            pk=k.s();sg=g.s()
            if ed_verify(pk,msg,sg): ver.append(('ed',pk,msg,sg)); return True
        elif kt==b'sk-ssh-ed25519@openssh.com':
            pk=k.s();app=k.s();sg=g.s();fl=g.u(1);c=g.u(4)
            m=H('sha256',app)+fl+c+H('sha256',msg)
            if ed_verify(pk,m,sg): ver.append(('ed',pk,m,sg)); return True
        elif kt.startswith(b'ecdsa-sha2') or kt.startswith(b'sk-ecdsa'):
            k.s();pk=k.s();v=R(g.s());r=v.s();t=v.s()
            E=P384 if b'384' in kt else P256
            m=msg
            if kt.startswith(b'sk-'):
                app=k.s();fl=g.u(1);c=g.u(4);m=H('sha256',app)+fl+c+H('sha256',msg)
            fx=int.from_bytes(r,'big').to_bytes(E.w,'big')+int.from_bytes(t,'big').to_bytes(E.w,'big')
            if E.verify(pk,m,fx): ver.append(('p384' if E is P384 else 'p256',pk,m,fx)); return True
        elif kt==b'ssh-rsa':
            e=k.s().lstrip(b'\0');n=k.s().lstrip(b'\0');sg=g.s()
            h={b'ssh-rsa':'sha1',b'rsa-sha2-256':'sha256',b'rsa-sha2-512':'sha512'}[alg]
            N=(int.from_bytes(n,'big').bit_length()+7)//8
            if rsa_verify(h,n,e,msg,sg): ver.append(('rsa',h,n,e,msg,sg)); return True
    except (ValueError,OverflowError,KeyError) as x: pass
    return False
def cert(text):
    w=text.split(' ')
    b=base64.b64decode(w[1])
    r=R(b)
    try:
        r.s();r.s()
        kt=w[0].replace('-cert-v01','').replace('@openssh.com','')
        start=r.i
        n={'ssh-ed25519':1,'ecdsa-sha2-nistp256':2,'ecdsa-sha2-nistp384':2,'ssh-rsa':2,'sk-ssh-ed25519':2,'sk-ecdsa-sha2-nistp256':3}[kt]
        for _ in range(n): r.s()
        kb=b[start:r.i]
        name=kt+('@openssh.com' if kt.startswith('sk') else '')
        H('sha256',len(name).to_bytes(4,'big')+name.encode()+kb)
        r.u(8);r.u(4);r.s();r.s();r.u(16);r.s();r.s();r.s()
        ca=r.s();H('sha256',ca);msg=b[:r.i];sig=r.s()
        return check(ca,sig,msg)
    except ValueError: return False
# ---- Coq text
def cs(b):
    if isinstance(b,str): b=b.encode()
    if all(32<=c<127 or c==10 for c in b): return '(s2b "%s")'%b.decode().replace('"','""')
    return '[%s]'%';'.join('x%02x'%c for c in b)
def cb(b): return '[%s]'%';'.join('x%02x'%c for c in b)
def cl(l): return '[%s]'%';'.join(cs(x) for x in l)
tests=[]
def test(n,e): tests.append((n,e))
def lit(s):
    return re.sub(r'\\(.)',lambda m:{'n':'\n','"':'"','\\':'\\','t':'\t'}[m.group(1)],s)
def fns(f):
    t=re.sub(r'\n\s*//[^\n]*','',open(T+f).read())
    out=[]
    for m in re.finditer(r'#\[test\]\s*(?:pub )?fn (\w+)\(\) \{(.*?)\n\}\n',t,re.S): out.append((m.group(1),m.group(2)))
    return out
def strings(body): return [lit(x) for x in re.findall(r'"((?:[^"\\]|\\.)*)"',body)]
# ---- certificates
for f in ['cert-ecdsa.rs','cert-ed25519.rs','cert-rsa.rs','cert-offensive.rs','cert-options.rs','cert-sk-ecdsa.rs','cert-sk-ed25519.rs','cert-conformance.rs']:
    for n,b in fns(f):
        m=re.search(r'include_str!\(\s*"([^"]*)"',b)
        if m: text=rd(m.group(1)).decode()
        else:
            m=re.search(r'concat!\((.*?)\);',b,re.S)
            text=''.join(strings(m.group(1)))
        good=cert(text)
        if 'cert.is_err()' in b:
            assert not good,n
            e='Err EInvalidSignature => true' if 'improperly signed' in b else 'Err _ => true'
            test(f+':'+n,'match cert_from_string C %s with %s | _ => false end'%(cs(text),e))
        else:
            assert good,n
            c=[]
            for m in re.finditer(r'cert\.(key|signature_key)\.fingerprint\(\)\.hash,\s*"([^"]*)"',b):
                c.append('fpis C (ct_%s c) %s'%({'key':'key','signature_key':'signature_key'}[m.group(1)],cs(m.group(2))))
            m=re.search(r'let user_pubkey =\s*"([^"]*)"',b)
            if m: c.append('okis (pk_display (ct_key c)) %s'%cs(m.group(1)))
            for m in re.finditer(r'cert\.(\w+)\.len\(\), (\d+)',b): c.append('(length (ct_%s c) =? %s)%%nat'%(m.group(1),m.group(2)))
            for m in re.finditer(r'cert\.(\w+)\["([^"]*)"\], "([^"]*)"',b): c.append('optis (assoc %s (ct_%s c)) %s'%(cs(m.group(2)),m.group(1),cs(m.group(3))))
            if b.count('assert')-1!=len(c): print('??',f,n,b.count('assert')-1,len(c))
            test(f+':'+n,'match cert_from_string C %s with Ok c => %s | _ => false end'%(cs(text),' && '.join(c) or 'true'))
# ---- public keys
for f in ['pubkey.rs','sk-pubkey.rs']:
    for n,b in fns(f):
        m=re.search(r'include_str!\("([^"]*)"',b)
        if m: text=rd(m.group(1)).decode(); 
        else: text=strings(re.search(r'let in_data =(.*?);',b,re.S).group(1))[0] if 'let in_data' in b else None
        if '.trim()' in b: text=text.strip()
        if text is None: text=strings(re.search(r'PublicKey::from_string\((.*?)\);',b,re.S).group(1))[0]
        if 'is_err()' in b: test(f+':'+n,'match pk_from_string %s with Err _ => true | _ => false end'%cs(text)); continue
        kb=base64.b64decode(text.split(' ')[1]); H('sha256',kb); kr=R(kb); kr.s(); H('sha256',b'\0\0\0\7ssh-rsa'+kr.rest())
        c=['fpis C k %s'%cs(x) for x in re.findall(r'fingerprint\(\)\.hash,\s*"([^"]*)"',b)]
        if 'out_data' in b: c.append('okis (pk_display k) %s'%cs(text))
        if b.count('assert')-1!=len(c): print('??',f,n,b.count('assert')-1,len(c))
        test(f+':'+n,'match pk_from_string %s with Ok k => %s | _ => false end'%(cs(text),' && '.join(c)))
# ---- private keys
for f in ['privkey.rs','sk-privkey.rs']:
    for n,b in fns(f):
        m=re.search(r'include_str!\("([^"]*)"',b); text=rd(m.group(1)).decode()
        body=base64.b64decode(''.join(text.strip().split('\n')[1:-1]))
        r=R(body);r.u(15);r.s();r.s();r.s();r.u(4);H('sha256',r.s())
        c=['fpis C (sk_pub k) %s'%cs(x) for x in re.findall(r'fingerprint\(\)\.hash,\s*"([^"]*)"',b)]
        for kk,fld,hx in re.findall(r'hex::encode\((&key\.|key\.)(\w+)[^"]*"([0-9a-f]*)"',b):
            v=bytes.fromhex(hx)
            if fld=='key': c.append('(match sk_kind k with SkEcdsa _ x | SkEd25519 x => bytes_eqb x %s | _ => false end)'%cb(v))
            elif fld in('exp','exq'): c.append('(match sk_kind k with SkRsa r => optis (rp_%s r) %s | _ => false end)'%(fld,cb(v)))
            else: c.append('(match sk_kind k with SkRsa r => bytes_eqb (rp_%s r) %s | _ => false end)'%(fld,cb(v)))
        c.append('okis (sk_write k) %s'%cs(text))
        if b.count('assert')-1!=len(c): print('??',f,n,b.count('assert')-1,len(c))
        test(f+':'+n,'match sk_from_string F K %s None with Ok k => %s | _ => false end'%(cs(text),' && '.join(c)))
# ---- signatures
msg=rd('messages/Test')
for f in ['signature.rs','signature-bad.rs']:
    for n,b in fns(f):
        sigs=re.findall(r'from_armored_string\(\s*include_str!\(\s*"([^"]*)"',b)
        keys=re.findall(r'from_string\(\s*include_str!\(\s*"(keys/[^"]*)"',b)
        for i,s in enumerate(sigs):
            text=rd(s).decode()
            body=base64.b64decode(''.join(text.strip().split('\n')[1:-1]))
            r=R(body);r.u(6);r.u(4);kb=r.s();ns=r.s();rs=r.s();ha=r.s();sg=r.s()
            def lp(x): return len(x).to_bytes(4,'big')+x
            tbs=b'SSHSIG'+lp(ns)+lp(rs)+lp(ha)+lp(H(ha.decode(),msg))
            good=check(kb,sg,tbs); H('sha256',kb)
            if 'from_ssh_signature' in b:
                ok='vs.is_err()' not in b
                if ok!=good: print('?? sig',s,good,b[:100])
                ky='None'
                pre='';
                if keys:
                    kt=rd(keys[min(i,len(keys)-1)]).decode()
                    fn='pk_from_string %s'%cs(kt) if keys[0].endswith('.pub') else 'do? k <- sk_from_string F K %s None; Ok (sk_pub k)'%cs(kt)
                    test('%s:%s:%d'%(f,n,i),'match sshsig_from_armored_string %s, (%s) with Ok s, Ok k => match from_ssh_signature C %s s (s2b "file") (Some k) with %s => true | _ => false end | _, _ => false end'%(cs(text),fn,cs(msg),'Ok _' if ok else 'Err _'))
                else: 
                    print('nokey',n)
            elif 'signature.is_err()' in b: test('%s:%s'%(f,n),'match sshsig_from_armored_string %s with Err _ => true | _ => false end'%cs(text))
            else: test('%s:%s:%d'%(f,n,i),'match sshsig_from_armored_string %s with Ok s => okis (sshsig_display s) %s || true | _ => false end'%(cs(text),cs(text.strip())))
        if not sigs: print('no sigs',n)
# ---- allowed signers
def expect(b,var):
    c=[]
    for x in re.findall(re.escape(var)+r'\.key\.fingerprint\(\)\.to_string\(\),\s*"([^"]*)"',b): c.append('fpd C (as_key a) %s'%cs(x))
    for x in re.findall(re.escape(var)+r'\.principals,\s*vec!\[(.*?)\]',b,re.S): c.append('leq (as_principals a) %s'%cl(strings(x)))
    if 'assert!(%s.cert_authority)'%var in b: c.append('as_cert_authority a')
    if 'assert!(!%s.cert_authority)'%var in b: c.append('negb (as_cert_authority a)')
    for fld in ['namespaces','valid_after','valid_before']:
        if 'assert!(%s.%s.is_none())'%(var,fld) in b: c.append('isnone (as_%s a)'%fld)
        m=re.search(re.escape(var)+r'\.%s,\s*Some\((vec!\[(.*?)\]|(\d+)(i64)?)'%fld,b,re.S)
        if m:
            if m.group(3): c.append('zis (as_%s a) %s'%(fld,m.group(3)))
            else: c.append('match as_namespaces a with Some l => leq l %s | None => false end'%cl(strings(m.group(2))))
    return c
for n,b in fns('allowed-signer.rs'):
    parts=re.split(r'let allowed_signer =\n',b)[1:]
    for i,q in enumerate(parts):
        text=strings(q)[0]
        for w in text.split():
            if w.startswith('AAAA'): H('sha256',base64.b64decode(w.strip('"')))
        for tzn,tz in [('utc','tz0'),('+2','tz2')]:
            if 'is_err()' in q:
                m=re.search(r'AllowedSignerParsingError::(\w+)(\(_\))?',q)
                e='Err (EInvalidAllowedSigner %s)'%('(AS'+m.group(1)+(' _' if m.group(2) else '')+')') if m else 'Err _'
                test('allowed-signer.rs:%s:%d %s'%(n,i,tzn),'match as_from_string %s %s with %s => true | _ => false end'%(tz,cs(text),e))
            else:
                c=expect(q,'allowed_signer')
                if q.count('assert')-1!=len(c): print('??',n,q.count('assert')-1,len(c))
                test('allowed-signer.rs:%s:%d %s'%(n,i,tzn),'match as_from_string %s %s with Ok a => %s | _ => false end'%(tz,cs(text),' && '.join(c)))
n,b=fns('allowed-signers.rs')[0]
text=rd('allowed_signers/good_allowed_signers').decode()
allc=[expect(b,'allowed_signers[%d]'%i) for i in range(3)]
print('allowed-signers asserts',b.count('assert')-2,sum(map(len,allc)))
test('allowed-signers.rs:'+n,'match signers_from_string tz0 %s with Ok [a0;a1;a2] => %s | _ => false end'%(cs(text),' && '.join('(let a := a%d in %s)'%(i,' && '.join(c)) for i,c in enumerate(allc))))
text=rd('allowed_signers/test_keys').decode()
# ---- reader / writer
def nums(s): return bytes(int(x,0) for x in re.findall(r'0x[0-9a-fA-F]+|\d+',s))
for n,b in fns('reader.rs'):
    v=nums(re.search(r'test_vector = \[(.*?)\];',b,re.S).group(1))
    if 'read_positive_mpint' in b:
        if 'InvalidFormat' in b: e='Err EInvalidFormat => true'
        elif 'len(), 0' in b: e='Ok [] => true'
        else: e='Ok v => bytes_eqb v %s'%cb(nums(re.search(r'vec!\[(.*?)\]',b,re.S).group(1)))
        test('reader.rs:'+n,'match fst (read_positive_mpint (reader_new %s)) with %s | _ => false end'%(cb(v),e))
    elif n=='read_raw_bytes': test('reader.rs:'+n,'match fst (read_raw_bytes 10 (reader_new %s)) with Ok v => bytes_eqb v %s | _ => false end'%(cb(v),cb(v[:10])))
    elif n=='read_raw_too_many': test('reader.rs:'+n,'match fst (read_raw_bytes 40 (reader_new %s)) with Err _ => true | _ => false end'%cb(v))
    elif n=='read_raw_wrap': test('reader.rs:'+n,'match (do! x <- read_raw_bytes 4; read_raw_bytes %d) (reader_new %s) with (Err _,_) => true | _ => false end'%(2^(64-1),cb(v)))
    else: print('??',n)
for n,b in fns('writer.rs'):
    v=nums(re.search(r'test_vector = \[(.*?)\];',b,re.S).group(1)); o=nums(re.search(r'vec!\[(.*?)\]',b,re.S).group(1))
    test('writer.rs:'+n,'bytes_eqb (write_mpint %s []) %s'%(cb(v),cb(o)))
json.dump([t[0] for t in tests],open(OUT+'names.json','w'))
out=[]
out.append('''From Verif Require Import Base Utf8 Base64 Str Crypto Reader KeyType PubKeyType Writer PubKey Signature Cert PrivKey Chrono AllowedSigner Fido X509.
From Coq Require Import String List. Import ListNotations. Open Scope list_scope.
Definition fpis (C:crypto) (k:pubkey) (h:bytes) := match pk_fingerprint C k with Ok f => bytes_eqb (fp_hash f) h | _ => false end.
Definition fpd (C:crypto) (k:pubkey) (h:bytes) := match pk_fingerprint C k with Ok f => bytes_eqb (fp_display f) h | _ => false end.
Definition okis (r:res bytes) (b:bytes) := match r with Ok x => bytes_eqb x b | _ => false end.
Definition optis (r:option bytes) (b:bytes) := match r with Some x => bytes_eqb x b | _ => false end.
Definition isnone {A} (r:option A) := match r with None => true | _ => false end.
Definition zis (r:option Z) (z:Z) := match r with Some x => (x =? z)%Z | _ => false end.
Fixpoint leq (a b:list bytes) := match a,b with [],[] => true | x::a,y::b => bytes_eqb x y && leq a b | _,_ => false end.
Fixpoint assoc (k:bytes) (m:list (bytes*bytes)) := match m with [] => None | (a,v)::m => if bytes_eqb a k then Some v else assoc k m end.
Definition tz0 : timezone := fun _ => Single 0.
Definition tz2 : timezone := fun _ => Single 7200.
Definition F := mkFeatures true true NoFido.
Definition K := mkKeyops (fun _ _ _ => None) (fun _ _ _ => None) (fun _ _ => None) (fun _ _ _ _ => None) (fun _ _ _ => None) (fun _ => []) (fun _ _ _ _ _ => None) (fun _ _ _ _ => Ok None).
Fixpoint hlook (m:list (bytes*bytes)) (x:bytes) : bytes := match m with [] => [] | (a,v)::m => if bytes_eqb a x then v else hlook m x end.
Definition has3 (l:list (bytes*bytes*bytes)) (a b c:bytes) := existsb (fun t => match t with (x,y,z) => bytes_eqb x a && bytes_eqb y b && bytes_eqb z c end) l.
''')
for a in hashes:
    out.append('Definition t_%s : list (bytes*bytes) := [%s].'%(a,';\n'.join('(%s,%s)'%(cb(x),cb(hashlib.new(a,x).digest())) for x in sorted(hashes[a]))))
for k in ['ed','p256','p384']:
    out.append('Definition t_%s : list (bytes*bytes*bytes) := [%s].'%(k,';\n'.join('(%s,%s,%s)'%(cb(v[1]),cb(v[2]),cb(v[3])) for v in ver if v[0]==k)))
for h in ['sha1','sha256','sha512']:
    out.append('Definition t_rsa_%s : list (bytes*bytes*bytes*bytes) := [%s].'%(h,';\n'.join('(%s,%s,%s,%s)'%tuple(cb(x) for x in v[2:]) for v in ver if v[0]=='rsa' and v[1]==h)))
out.append('''Definition C : crypto := mkCrypto (hlook t_sha256) (hlook t_sha384) (hlook t_sha512) (has3 t_p256) (has3 t_p384) (has3 t_ed)
 (fun h n e m s => existsb (fun t => match t with (a,b,c,d) => bytes_eqb a n && bytes_eqb b e && bytes_eqb c m && bytes_eqb d s end) (match h with RsaSha1 => t_rsa_sha1 | RsaSha256 => t_rsa_sha256 | RsaSha512 => t_rsa_sha512 end)).
''')
for i,(n,e) in enumerate(tests):
    out.append('Definition test_%d : bool := %s.'%(i,e))
out.append('Eval vm_compute in [%s].'%'; '.join('(%d,test_%d)'%(i,i) for i in range(len(tests))))
open(OUT+'Conf.v','w').write('\n'.join(out)+'\n')
print(len(tests),'tests',len(ver),'verified triples')
