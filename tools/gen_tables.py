#!/usr/bin/env python3
"""Reads the class tables (c_param, c_default, c_allowed_values, bases) out of the
oidcmsg sources with the ast module -- the sources are parsed as text, never
imported or executed -- and writes rocq/theories/Model/Cls.v and Tables.v."""
import ast, os, sys
REPO='/repo/src/oidcmsg'
OUT=os.path.join(os.path.dirname(os.path.abspath(__file__)),'..','rocq','theories','Model')
MODS=[('message','oidcmsg.message','message.py'),('oauth2','oidcmsg.oauth2','oauth2/__init__.py'),
      ('oidc','oidcmsg.oidc','oidc/__init__.py'),
      ('device','oidcmsg.oauth2.device_authorization','oauth2/device_authorization.py'),
      ('session','oidcmsg.oidc.session','oidc/session.py'),
      ('ida','oidcmsg.oidc.identity_assurance','oidc/identity_assurance.py')]
class Cls:
    def __init__(s,mod,name,bases,line,end,file): s.mod,s.name,s.bases,s.line,s.end,s.file=mod,name,bases,line,end,file; s.ns={}
    @property
    def coq(s): return 'C_Message' if s.name=='Message' else 'C_%s_%s'%(s.mod,s.name)
    def mro(s):
        seqs=[b.mro() for b in s.bases]+[list(s.bases)]; res=[s]
        while any(seqs):
            seqs=[q for q in seqs if q]
            for q in seqs:
                if not any(q[0] in r[1:] for r in seqs): c=q[0]; break
            else: raise Exception('mro')
            res.append(c); seqs=[[x for x in q if x is not c] for q in seqs]
        return res
    def attr(s,n):
        for c in s.mro():
            if n in c.ns: return c.ns[n]
        raise KeyError(n)
class Fn:
    def __init__(s,mod,name,node): s.mod,s.name,s.node=mod,name,node
class Unknown: pass
UNK=Unknown()
modns={}; classes=[]; CONST=[]
def ev(e,ns,loc):
    if isinstance(e,ast.Constant): return e.value
    if isinstance(e,ast.Name):
        if e.id in loc: return loc[e.id]
        if e.id in ns: return ns[e.id]
        if e.id in('str','int','bool','dict','any','set'): return e.id_t if hasattr(e,'id_t') else ('T',e.id)
        return UNK
    if isinstance(e,ast.Tuple): return tuple(ev(x,ns,loc) for x in e.elts)
    if isinstance(e,ast.List): return [ev(x,ns,loc) for x in e.elts]
    if isinstance(e,ast.Dict): return {ev(k,ns,loc):ev(v,ns,loc) for k,v in zip(e.keys,e.values)}
    if isinstance(e,ast.Attribute):
        b=ev(e.value,ns,loc)
        if isinstance(b,Cls): return b.attr(e.attr)
        if isinstance(b,dict) and b.get('__mod__'): return b.get(e.attr,UNK)
        return UNK
    if isinstance(e,ast.Subscript):
        b=ev(e.value,ns,loc); i=ev(e.slice,ns,loc)
        return b[i]
    if isinstance(e,ast.Call):
        if isinstance(e.func,ast.Attribute):
            if e.func.attr=='copy': return dict(ev(e.func.value,ns,loc))
        return UNK
    return UNK
def stmt_call(e,ns,loc):
    if isinstance(e.func,ast.Attribute):
        o=ev(e.func.value,ns,loc)
        if e.func.attr=='update' and isinstance(o,dict): o.update(ev(e.args[0],ns,loc))
        elif e.func.attr=='extend' and isinstance(o,list): o.extend(ev(e.args[0],ns,loc))
for short,full,path in MODS:
    src=open(os.path.join(REPO,path)).read(); tree=ast.parse(src); ns={'__mod__':True}; modns[full]=ns
    for n in tree.body:
        if isinstance(n,ast.ImportFrom):
            m=n.module or ''
            if n.level: m={1:'oidcmsg.oidc' if short=='session' else '',2:'oidcmsg'}[n.level]+('.'+m if m else '')
            for a in n.names:
                if m in modns and a.name in modns[m]: ns[a.asname or a.name]=modns[m][a.name]
                elif m+'.'+a.name in modns: ns[a.asname or a.name]=modns[m+'.'+a.name]
        elif isinstance(n,ast.FunctionDef): ns[n.name]=Fn(short,n.name,n)
        elif isinstance(n,ast.Assign) and isinstance(n.targets[0],ast.Name):
            ns[n.targets[0].id]=ev(n.value,ns,{})
            v=ns[n.targets[0].id]
            if isinstance(v,tuple) and len(v)==5: CONST.append((v,n.targets[0].id,'src/oidcmsg/%s:%d'%(path,n.lineno)))
        elif isinstance(n,ast.ClassDef):
            bases=[ev(b,ns,{}) for b in n.bases]
            if n.name=='Message': bases=[]
            elif not any(isinstance(b,Cls) for b in bases): continue
            bases=[b for b in bases if isinstance(b,Cls)]
            c=Cls(short,n.name,bases,n.lineno,n.end_lineno,'src/oidcmsg/'+path)
            for s in n.body:
                if isinstance(s,ast.Assign) and isinstance(s.targets[0],ast.Name): c.ns[s.targets[0].id]=ev(s.value,ns,c.ns)
                elif isinstance(s,ast.Expr) and isinstance(s.value,ast.Call): stmt_call(s.value,ns,c.ns)
            ns[n.name]=c; classes.append(c)
SER={'list_serializer':'SerList','sp_sep_list_serializer':'SerSpSep','json_serializer':'SerJson','json_ser':'SerJson','msg_ser':'SerMsg',
     'msg_ser_json':'SerMsgJson','claims_ser':'SerClaims','msg_list_ser':'SerMsgList','link_list_ser':'SerLinkList','time_stamp_ser':'SerTime','date_ser':'SerDate'}
DES={'list_deserializer':'DeList','sp_sep_list_deserializer':'DeSpSep','json_deserializer':'DeJson','json_deser':'DeJson','msg_deser':'DeMsg',
     'address_deser':'DeOneOf C_oidc_AddressClaim','claims_deser':'DeOneOf C_oidc_Claims','registration_request_deser':'DeOneOf C_oidc_RegistrationRequest',
     'document_deser':'DeOneOf C_ida_Document','verification_element_request_deser':'DeOneOf C_ida_VerificationElementRequest',
     'claims_request_deser':'DeJsonCls C_oidc_ClaimsRequest','place_of_birth_deser':'DeJsonCls C_ida_PlaceOfBirth','dict_deser':'DeDict','link_deser':'DeLink',
     'msg_list_deser':'DeMsgList','evidence_list_deser':'DeEvidenceList','verifier_deser':'DeMsgCls C_ida_Verifier','issuer_deser':'DeMsgCls C_ida_Issuer',
     'id_document_deser':'DeMsgCls C_ida_IdDocument','provider_deser':'DeMsgCls C_ida_Provider','utility_bill_deser':'DeMsgCls C_ida_UtilityBill',
     'qes_deser':'DeMsgCls C_ida_QES','verification_element_deser':'DeMsgCls C_ida_VerificationElement','time_stamp_deser':'DeTime','date_deser':'DeDate'}
def ty(t):
    if isinstance(t,list): return 'TList (%s)'%ty(t[0])
    if isinstance(t,Cls): return 'TMsg %s'%t.coq
    return {'str':'TStr','int':'TInt','bool':'TBool','dict':'TDict'}[t[1]]
def lit(v):
    if isinstance(v,bool): return 'VBool %s'%str(v).lower()
    if isinstance(v,str): return 'VStr (u "%s")'%v
    if isinstance(v,int): return 'VInt %d'%v
    if isinstance(v,list): return 'VList [%s]'%'; '.join(lit(x) for x in v)
    raise Exception(v)
def spec(s):
    t,req,ser,des,null=s
    se='None' if ser is None else 'Some %s'%SER[ser.name]
    d='None' if des is None else ('Some (%s)'%DES[des.name])
    return 'mkP (%s) %s (%s) (%s) %s'%(ty(t),str(req).lower(),se,d,str(null).lower())
specs={}; order=[]
def specname(s):
    k=spec(s)
    if k not in specs: specs[k]='sp%02d'%len(specs); order.append(k)
    return specs[k]
def spec_or_none(v):
    try: return spec(v)
    except KeyError: return None
def main():
    o=open(OUT+'/Cls.v','w')
    o.write('(** Generated by tools/gen_tables.py from the text of /repo/src/oidcmsg.\n    The message classes of the library, their names and method resolution order. *)\n')
    o.write('From Coq Require Import List String.\nFrom Verif Require Import Base.Ustr.\nImport ListNotations.\nOpen Scope string_scope.\n\n')
    o.write('(** One constructor for each class derived from Message.\n    message.py:29, oauth2/__init__.py:37-392, oidc/__init__.py:337-1144, oidc/session.py, oidc/identity_assurance.py *)\nInductive cls :=\n')
    for c in classes: o.write('| %s (* %s:%d-%d *)\n'%(c.coq,c.file,c.line,c.end))
    o.write('.\n\n(** classes are compared by identity, message.py:571-586 *)\nDefinition cls_eq_dec : forall a b : cls, {a = b} + {a <> b}.\nProof. decide equality. Defined.\n')
    o.write('\n(** All classes, in source order. message.py:29 and the classes derived from Message *)\nDefinition all_cls : list cls := [%s].\n'%'; '.join(c.coq for c in classes))
    o.write('\n(** [cls.__name__]; message.py:57-63 *)\nDefinition cls_name (c : cls) : ustr :=\n  match c with\n')
    for c in classes: o.write('  | %s => u "%s"\n'%(c.coq,c.name))
    o.write('  end.\n\n(** [cls.__mro__] restricted to Message subclasses; message.py:29 and the classes derived from Message *)\nDefinition cls_mro (c : cls) : list cls :=\n  match c with\n')
    for c in classes: o.write('  | %s => [%s]\n'%(c.coq,'; '.join(x.coq for x in c.mro())))
    o.write('  end.\n'); 
    for mod,short in (('oidcmsg.oauth2','oauth2'),('oidcmsg.oidc','oidc')):
        mem=sorted((n,v) for n,v in modns[mod].items() if isinstance(v,Cls))if False else sorted([(n,v) for n,v in modns[mod].items() if isinstance(v,Cls)],key=lambda x:x[0])
        o.write('\n(** [inspect.getmembers] of module %s restricted to Message subclasses (sorted by name);\n    %s *)\nDefinition members_%s : list (ustr * cls) :=\n  [%s].\n'%(mod,'oauth2/__init__.py:395-410' if short=='oauth2' else 'oidc/__init__.py:1147-1157',short,';\n   '.join('(u "%s", %s)'%(n,v.coq) for n,v in mem)))
    o.close()
    body=''
    for c in classes:
        nm=c.coq[2:]
        body+='\n(** %s:%d-%d *)\nDefinition cd_%s : clsdef := {|\n  cd_name := u "%s";\n  cd_param := [%s];\n  cd_default := [%s];\n  cd_allowed := [%s] |}.\n'%(
            c.file,c.line,c.end,nm,c.name,
            ';\n    '.join('(u "%s", %s)'%(k,specname(v)) for k,v in c.attr('c_param').items()),
            '; '.join('(u "%s", %s)'%(k,lit(v)) for k,v in c.attr('c_default').items()),
            '; '.join('(u "%s", [%s])'%(k,'; '.join(lit(x) for x in v)) for k,v in c.attr('c_allowed_values').items()))
    o=open(OUT+'/Tables.v','w')
    o.write('(** Generated by tools/gen_tables.py from the text of /repo/src/oidcmsg:\n    c_param, c_default and c_allowed_values of each message class after the\n    module bodies of message, oauth2, oidc, device_authorization, session and\n    identity_assurance have run (oidc/__init__.py:390-401 extends the list of\n    oauth2.AuthorizationErrorResponse in place, so both classes show it). *)\n')
    o.write('From Coq Require Import List String ZArith.\nFrom Verif Require Import Base.Ustr Model.Cls Model.Value Model.Pspec.\nImport ListNotations.\nOpen Scope string_scope.\n')
    for k in order:
        cites=', '.join('%s (%s)'%(n,l) for v,n,l in CONST if v[0]!=('T','any') and spec_or_none(v)==k)
        o.write('\n(** %s *)\nDefinition %s : pspec := %s.\n'%(cites,specs[k],k))
    o.write(body)
    o.write('\n(** class -> tables *)\nDefinition cdef (c : cls) : clsdef :=\n  match c with\n')
    for c in classes: o.write('  | %s => cd_%s\n'%(c.coq,c.coq[2:]))
    o.write('  end.\n')
    print(len(classes),'classes',len(order),'specs')
main()
