"""Attestations, encrypted keys and signing: the vectors that vectors.py leaves out.

usage: devices.py DIR   (writes DIR/Conf2.v, DIR/names2.json and DIR/prints.json)
Uses ssh-keygen to decrypt the encrypted test keys and to write the DER form of the RSA keys.
"""
import subprocess,shutil,tempfile,sys,os
HERE=os.path.dirname(os.path.abspath(__file__))+'/'
exec(open(HERE+'vectors.py').read().split('# ---- certificates')[0])
tests.clear()
# ---- DER
def tlv(b,i=0):
    t=b[i];l=b[i+1];j=i+2
    if l&128: n=l&127;l=int.from_bytes(b[j:j+n],'big');j+=n
    return t,b[j:j+l],i,j+l
def kids(b):
    i=0;o=[]
    while i<len(b):
        t,v,s,e=tlv(b,i);o.append((t,v,b[s:e]));i=e
    return o
def oid(v):
    o=[];n=0
    for c in v:
        n=n*128+(c&127)
        if not c&128: o.append(n);n=0
    a=min(o[0]//40,2);return '.'.join(map(str,[a,o[0]-40*a]+o[1:]))
def parse(der):
    top=kids(tlv(der)[1]);tbs=top[0][2];f=kids(top[0][1]);sig=top[2][1][1:];salg=oid(kids(top[1][1])[0][1])
    if f[0][0]==0xa0: f=f[1:]
    sp=kids(f[5][1]);alg=kids(sp[0][1])
    par=None if len(alg)<2 else ('oid',oid(alg[1][1])) if alg[1][0]==6 else ('other',)
    ext=[]
    for x in f[6:]:
        if x[0]==0xa3:
            for e in kids(kids(x[1])[0][1]):
                k=kids(e[1]);ext.append((oid(k[0][1]),k[-1][1]))
    return dict(der=der,alg=oid(alg[0][1]),par=par,key=sp[1][1][1:],ext=ext,tbs=tbs,sig=sig,salg=salg)
def spki(c): return '(mkSpki %s %s %s)'%(cs(c['alg']),'None' if c['par'] is None else '(Some (Some %s))'%cs(c['par'][1]) if c['par'][0]=='oid' else '(Some None)',cb(c['key']))
def xc(c): return '(mkXcert %s %s [%s])'%(cb(c['der']),spki(c),';'.join('(%s,%s)'%(cs(a),cb(v)) for a,v in c['ext']))
def signed(c,ca):
    k=kids(tlv(ca['key'])[1]);n=k[0][1].lstrip(b'\0');e=k[1][1]
    h={'1.2.840.113549.1.1.11':'sha256','1.2.840.113549.1.1.5':'sha1'}[c['salg']]
    return rsa_verify(h,n,e,c['tbs'],c['sig'])
def consts(f):
    t=open(T+f).read()
    return {m.group(1):bytes(int(x,0) for x in re.findall(r'0x[0-9a-fA-F]+|\d+',m.group(2))) for m in re.finditer(r'const (\w+): \[u8; \d+\] = \[(.*?)\];',t,re.S)}
def root(f,name):
    t=open('/repo/src/'+f).read();m=re.search(name+r': &str =\s*"(.*?)"',t,re.S)
    return m.group(1).replace('\\n','\n')
defs=[]
def X(name,pem,certs,signs,asn1=[]):
    rootder=base64.b64decode(''.join(l for l in pem.split('\n') if l and not l.startswith('-')))
    rc=parse(rootder)
    defs.append('Definition pem_%s : bytes := %s.'%(name,cs(pem)))
    defs.append('Definition der_%s : bytes := %s.'%(name,cb(rootder)))
    defs.append('Definition root_%s : xcert := %s.'%(name,xc(rc)))
    for i,c in enumerate(certs): defs.append('Definition cert_%s_%d : xcert := %s.'%(name,i,xc(c)))
    def content(tag): # DER of a primitive
        pass
    prims={4:set(),3:set(),2:set()}
    for c in certs:
        for a,v in c['ext']:
            try:
                t,b,_,e=tlv(v)
                if e==len(v) and t in prims: prims[t].add((v,b[1:] if t==3 else b))
            except IndexError: pass
    def tab(s): return '(fun v => plook [%s] v)'%';'.join('(%s,%s)'%(cb(a),cb(b)) for a,b in sorted(s))
    sg=[]
    for a,b in signs:
        ca=rc if b=='root' else certs[b]
        if signed(certs[a],ca): sg.append('(xc_der c, sp_key k) =2 (%s,%s)'%(cb(certs[a]['der']),cb(ca['key'])))
        else: print('not signed',name,a,b)
    defs.append('Definition X_%s : x509 := mkX509 (fun p => if bytes_eqb p pem_%s then Some der_%s else None) (fun p => if bytes_eqb p der_%s then Some root_%s else None) (fun p => %s None) (fun _ => None) (fun c k => %s) (fun _ => None) %s %s %s (has3 [%s]).'%(name,name,name,name,name,''.join('if bytes_eqb p (xc_der cert_%s_%d) then Some cert_%s_%d else '%(name,i,name,i) for i in range(len(certs))),' || '.join(re.sub(r'\((.*?)\) =2 \((.*),(\[.*\])\)$',r'(bytes_eqb (xc_der c) \2 && bytes_eqb (sp_key k) \3)',x) for x in sg) or 'false',tab(prims[4]),tab(prims[3]),tab(prims[2]),';'.join('(%s,%s,%s)'%tuple(map(cb,x)) for x in asn1)))
def ecdsa_der_ok(pk,m,sig):
    k=kids(tlv(sig)[1]);r=int.from_bytes(k[0][1],'big');s=int.from_bytes(k[1][1],'big')
    return P256.verify(pk,m,r.to_bytes(32,'big')+s.to_bytes(32,'big'))
C1=consts('fido-lite.rs')
rt=root('fido/verification.rs','YUBICO_U2F_ROOT_CA')
for nm,pre,tr,fw,aa in [('bio','YUBIKEY_BIO','[USB]','Some (s2b "5.5.6")','d8522d9f575b486688a9ba99fa02f35b'),('nfc','YUBIKEY_5C_NFC','[USB;NFC]',None,'2fc0579f811347eab116bb5a8db9202a')]:
    ad=C1[pre+'_AUTH_DATA_ED25519'];sg=C1[pre+'_AUTH_SIG_ED25519'];ch=hashlib.sha256(C1[pre+'_CHALLENGE_ED25519']).digest();im=parse(C1[pre+'_INTERMEDIATE'])
    assert ecdsa_der_ok(im['key'],ad+ch,sg)
    X(nm,rt,[im],[(0,'root')],[(im['key'],ad+ch,sg)])
    c=['(match va_transports v with Some l => treq l %s | None => false end)'%tr,'optis (va_aaguid v) %s'%cb(bytes.fromhex(aa)),'bytes_eqb (ad_aaguid (va_auth v)) %s'%cb(bytes.fromhex(aa)),'bytes_eqb (ad_rpid_hash (va_auth v)) %s'%cb(bytes.fromhex('9f86d081884c7d659a2feaa0c55ad015a3bf4f1b2b0b822cd15d6c15b0f00a08'))]
    if fw: c.append('optis (va_firmware v) (s2b "5.5.6")')
    test('fido-lite '+nm,'match verify_auth_data X_%s pem_%s %s %s %s (-7) (xc_der cert_%s_0) None with Ok v => %s | _ => false end'%(nm,nm,cb(ad),cb(sg),cb(ch),nm,' && '.join(c)))
C2=consts('yubikey-lite.rs')
a=parse(C2['YUBIKEY_5CI_ATTESTATION']);im=parse(C2['YUBIKEY_5CI_INTERMEDIATE'])
X('piv',root('yubikey/verification.rs','YUBICO_PIV_ROOT_CA'),[im,a],[(0,'root'),(1,0)])
test('yubikey-lite','match verify_chain X_piv pem_piv (xc_der cert_piv_1) (xc_der cert_piv_0) None with Ok v => (vp_serial v =? 11778047)%N && bytes_eqb (vp_firmware v) (s2b "5.2.4") && (b2n (vp_touch v) =? 3)%N && (b2n (vp_pin v) =? 1)%N | _ => false end')
# ---- encrypted keys
d=tempfile.mkdtemp()
def keygen(*a): return subprocess.run(['ssh-keygen']+list(a),capture_output=True,text=True)
for i,(n,b) in enumerate(fns('privkey_encrypted.rs')):
    text=re.search(r'r#"(.*?)"#',b,re.S).group(1)
    pw=re.search(r'from_string_with_passphrase\(\s*\w+,\s*"([^"]*)"',b)
    body=base64.b64decode(''.join(text.strip().split('\n')[1:-1]))
    r=R(body);r.u(15);r.s();r.s();opt=R(r.s());salt=opt.s();rounds=int.from_bytes(opt.u(4),'big');r.u(4);pub=r.s();sec=r.s();H('sha256',pub)
    pws=re.findall(r'"([^"]*)"',b.split('from_string_with_passphrase')[1].split(';')[0])
    p=d+'/k%d'%i;open(p,'w').write(text+'\n');os.chmod(p,0o600)
    good='is_err' not in b
    if good:
        z=keygen('-p','-P',pws[0],'-N','','-f',p)
        if z.returncode: print('keygen',n,z.stderr,pws); continue
        q=R(base64.b64decode(''.join(open(p).read().strip().split('\n')[1:-1])));q.u(15);q.s();q.s();q.s();q.u(4);assert q.s()==pub
        pl=q.s()
        while len(pl)%16: pl+=bytes([pl[-1]+1 if 1<=pl[-1]<=16 else 1])
        if len(pl)!=len(sec): print('len',len(pl),len(sec))
    else: pl=os.urandom(len(sec)) if False else bytes((i*37+11)%256 for i in range(len(sec)))
    out=bytes(range(48))
    Kx='(mkKeyops (fun p s r => if bytes_eqb p %s && bytes_eqb s %s && (r =? %d)%%N then Some %s else None) (fun k iv x => if bytes_eqb k %s && bytes_eqb iv %s && bytes_eqb x %s then Some %s else None) (fun _ _ => None) (fun _ _ _ _ => None) (fun _ _ _ => None) (fun _ => []) (fun _ _ _ _ _ => None) (fun _ _ _ _ => Ok None))'%(cs(pws[0]),cb(salt),rounds,cb(out),cb(out[:32]),cb(out[32:]),cb(sec),cb(pl))
    if good:
        c=['fpis C (sk_pub k) %s'%cs(x) for x in re.findall(r'fingerprint\(\)\.hash,\s*"([^"]*)"',b)]
        for hx in re.findall(r'key\.key,\s*hex::decode\("([0-9A-Fa-f]*)"',b): c.append('(match sk_kind k with SkEcdsa _ x | SkEd25519 x => bytes_eqb x %s | _ => false end)'%cb(bytes.fromhex(hx)))
        print(n,b.count('assert')-1,len(c))
        test('privkey_encrypted '+n,'match sk_from_string F %s %s (Some %s) with Ok k => %s | _ => false end'%(Kx,cs(text),cs(pws[0]),' && '.join(c)))
        test('privkey_encrypted nopass '+n,'match sk_from_string F K %s None with Err EEncryptedPrivateKey => true | _ => false end'%cs(text))
    else: test('privkey_encrypted '+n,'match sk_from_string F %s %s (Some %s) with Err _ => true | _ => false end'%(Kx,cs(text),cs(pws[0])))
# ---- signing with every unencrypted key
msg=rd('messages/Test')
def lp(x): return len(x).to_bytes(4,'big')+x
def derint(n):
    b=n.to_bytes(n.bit_length()//8+1,'big');return b'\x02'+bytes([len(b)])+b
prints=[]
for f in sorted(os.listdir(T+'keys/unencrypted')):
    text=rd('keys/unencrypted/'+f).decode()
    r=R(base64.b64decode(''.join(text.strip().split('\n')[1:-1])));r.u(15);r.s();r.s();r.s();r.u(4);pub=r.s();s=R(r.s());s.u(8);kt=s.s()
    tbs=b'SSHSIG'+lp(b'file')+lp(b'')+lp(b'sha512')+lp(H('sha512',msg))
    ed=ec=rs='(fun _ _ => None)';ed='(fun _ _ _ => None)';ec='(fun _ _ _ _ => None)'
    if kt==b'ssh-ed25519':
        pk=s.s();sk=s.s();A,sg=ed_sign(sk[:32],tbs);assert A==pk and ed_verify(pk,tbs,sg);ver.append(('ed',pk,tbs,sg))
        ed='(fun a b m => if bytes_eqb a %s && bytes_eqb b %s && bytes_eqb m %s then Some %s else None)'%(cb(sk[:32]),cb(pk),cb(tbs),cb(sg))
    elif kt.startswith(b'ecdsa'):
        s.s();pk=s.s();x=int.from_bytes(s.s(),'big');E=P384 if b'384' in kt else P256
        k=12345678901234567890123456789012345678901;rr=E.mul(E.g,k)[0]%E.n;z=int.from_bytes(E.h(tbs).digest(),'big');t=pow(k,-1,E.n)*(z+rr*x)%E.n
        fx=rr.to_bytes(E.w,'big')+t.to_bytes(E.w,'big');assert E.verify(pk,tbs,fx);ver.append(('p384' if E is P384 else 'p256',pk,tbs,fx))
        bd=derint(rr)+derint(t);sg=b'\x30'+bytes([len(bd)])+bd
        ec='(fun al a b m => (match al with %s => true | _ => false end) && bytes_eqb a %s && bytes_eqb b %s && bytes_eqb m %s |> %s)'%('EcP384' if E is P384 else 'EcP256',cb(x.to_bytes(E.w,'big')),cb(pk),cb(tbs),cb(sg))
        ec=ec.replace(' |> ',' ?? ')
        m=re.match(r'\(fun al a b m => (.*) \?\? (.*)\)$',ec,re.S);ec='(fun al a b m => if %s then Some %s else None)'%(m.group(1),m.group(2))
    else:
        n=s.s();e=s.s();dd=s.s();iq=s.s();p_=s.s();q_=s.s()
        N=int.from_bytes(n,'big');kl=(N.bit_length()+7)//8
        t=DI['sha512']+hashlib.sha512(tbs).digest();em=b'\0\1'+b'\xff'*(kl-3-len(t))+b'\0'+t
        sg=pow(int.from_bytes(em,'big'),int.from_bytes(dd,'big'),N).to_bytes(kl,'big')
        ver.append(('rsa','sha512',n.lstrip(b'\0'),e.lstrip(b'\0'),tbs,sg));assert rsa_verify('sha512',n,e,tbs,sg)
        p=d+'/'+f;open(p,'w').write(text+('' if text.endswith('\n') else '\n'));os.chmod(p,0o600)
        z=keygen('-p','-m','PEM','-P','','-N','','-f',p)
        if z.returncode: print('pem',f,z.stderr); continue
        der=base64.b64decode(''.join(open(p).read().strip().split('\n')[1:-1]))
        rs='(fun a m => if bytes_eqb a %s && bytes_eqb m %s then Some %s else None)'%(cb(der),cb(tbs),cb(sg))
    Kx='(mkKeyops (fun _ _ _ => None) (fun _ _ _ => None) %s %s %s (fun _ => []) (fun _ _ _ _ _ => None) (fun _ _ _ _ => Ok None))'%(rs,ec,ed)
    defs.append('Definition made_%d : res verified := do? k <- sk_from_string F K %s None; new_with_private_key C %s (s2b "file") (sk_pub k) (sk_sign F C %s k) None.'%(len(prints),cs(text),cs(msg),Kx))
    test('create '+f,'(fun m : res verified => match m with Ok v => match sshsig_display (vs_signature v) with Ok t => match sshsig_from_armored_string t with Ok s => match from_ssh_signature C %s s (s2b "file") None with Ok _ => true | _ => false end | _ => false end | _ => false end | _ => false end) made_%d'%(cs(msg),len(prints)))
    prints.append(f)
base=open(HERE+'vectors.py').read()
hdr=base[base.index("out=[]\nout.append('''")+len("out=[]\nout.append('''"):base.index("''')\nfor a in hashes:")]
out=[hdr]
out.append('''Fixpoint plook (m:list (bytes*bytes)) (v:bytes) : option (option bytes) := match m with [] => None | (a,x)::m => if bytes_eqb a v then Some (Some x) else plook m v end.
Definition treq1 (a b:transport) := match a,b with USB,USB|NFC,NFC|Bluetooth,Bluetooth|BluetoothLE,BluetoothLE|USBInternal,USBInternal => true | _,_ => false end.
Fixpoint treq (a b:list transport) := match a,b with [],[] => true | x::a,y::b => treq1 x y && treq a b | _,_ => false end.''')
for a in hashes:
    out.append('Definition t_%s : list (bytes*bytes) := [%s].'%(a,';\n'.join('(%s,%s)'%(cb(x),cb(hashlib.new(a,x).digest())) for x in sorted(hashes[a]))))
for k in ['ed','p256','p384']:
    out.append('Definition t_%s : list (bytes*bytes*bytes) := [%s].'%(k,';\n'.join('(%s,%s,%s)'%(cb(v[1]),cb(v[2]),cb(v[3])) for v in ver if v[0]==k)))
for h in ['sha1','sha256','sha512']:
    out.append('Definition t_rsa_%s : list (bytes*bytes*bytes*bytes) := [%s].'%(h,';\n'.join('(%s,%s,%s,%s)'%tuple(cb(x) for x in v[2:]) for v in ver if v[0]=='rsa' and v[1]==h)))
out.append('''Definition C : crypto := mkCrypto (hlook t_sha256) (hlook t_sha384) (hlook t_sha512) (has3 t_p256) (has3 t_p384) (has3 t_ed)
 (fun h n e m s => existsb (fun t => match t with (a,b,c,d) => bytes_eqb a n && bytes_eqb b e && bytes_eqb c m && bytes_eqb d s end) (match h with RsaSha1 => t_rsa_sha1 | RsaSha256 => t_rsa_sha256 | RsaSha512 => t_rsa_sha512 end)).
''')
out+=defs
for i,(n,e) in enumerate(tests): out.append('Definition test_%d : bool := %s.'%(i,e))
out+=['Time Eval vm_compute in (%d,test_%d).'%(i,i) for i in range(len(tests))]
for i,f in enumerate(prints):
    out.append('Eval vm_compute in (%dkk, (fun m : res verified => match m with Ok v => match sshsig_display (vs_signature v) with Ok t => string_of_list_byte t | _ => ""%%string end | _ => ""%%string end) made_%d).'.replace('kk','')%(i,i))
open(OUT+'Conf2.v','w').write('\n'.join(out)+'\n')
json.dump([t[0] for t in tests],open(OUT+'names2.json','w'))
json.dump(prints,open(OUT+'prints.json','w'))
