"""Writes rocq/theories/Markup.v from the templates of /repo: the literal text of each
template becomes [Lit], each {{ expression }} a piece, each {% for %} and {% if %} a loop or
a choice in Coq. The tables below say what each expression and condition means."""
import re, os
REPO = os.environ.get('REPO', '/repo') + '/hyperreal/'
TOK = re.compile(r'(\{\{-?.*?-?\}\}|\{%-?.*?-?%\})', re.S)

def coqstr(s):
    return '"' + s.replace('"', '""') + '"'

class Gen:
    def __init__(self, src, exprs, conds, loops, auto):
        self.src, self.exprs, self.conds, self.loops, self.auto = src, exprs, conds, loops, auto
        self.toks = [t for t in TOK.split(src)]
        # whitespace control: "-%}" and "{%-"
        for i, t in enumerate(self.toks):
            if t.startswith('{%') or t.startswith('{{'):
                if t.endswith('-%}') or t.endswith('-}}'):
                    self.toks[i+1] = self.toks[i+1].lstrip()
                if t.startswith('{%-') or t.startswith('{{-'):
                    self.toks[i-1] = self.toks[i-1].rstrip()
        self.toks = [t for t in self.toks if t != '']
        self.i = 0
    def inner(self, t):
        return t[2:-2].strip('-').strip()
    def block(self, ind):
        """Parses up to an unmatched else/elif/endfor/endif; gives the Coq expression."""
        parts, cur = [], []
        def flush():
            nonlocal cur
            if cur: parts.append('[' + (';\n' + ind + ' ').join(cur) + ']'); cur = []
        while self.i < len(self.toks):
            t = self.toks[self.i]
            if t.startswith('{{'):
                e = self.inner(t); self.i += 1
                k = self.exprs[e]
                if k.startswith('@'):      # a macro: pieces
                    flush(); parts.append(k[1:])
                elif ':' in k[:5] and k.split(':', 1)[0] in ('Esc', 'Raw', 'Lit'):
                    c, v = k.split(':', 1); cur.append(f'{c} {v}')
                else:
                    esc = self.auto or e.endswith('| e')
                    cur.append(('Esc ' if esc else 'Raw ') + k)
            elif t.startswith('{%'):
                e = self.inner(t)
                if e.startswith('set '):
                    self.i += 1; continue
                if e.startswith('for '):
                    self.i += 1; flush()
                    head = self.loops[e]
                    body = self.block(ind + '    ')
                    assert self.inner(self.toks[self.i]) == 'endfor', self.toks[self.i]; self.i += 1
                    var, seq = head
                    parts.append(f'each {seq} (fun {var} =>\n{ind}    {body})')
                elif e.startswith('if '):
                    flush(); parts.append(self.choice(e[3:], ind))
                else: break
            else:
                cur.append('Lit ' + coqstr(t)); self.i += 1
        flush()
        return (f'\n{ind}++ ').join(parts) if parts else '[]'
    def choice(self, cond, ind):
        self.i += 1
        then = self.block(ind + '    ')
        e = self.inner(self.toks[self.i])
        if e.startswith('elif '):
            els = self.choice(e[5:], ind + '    ')
            return self.cond(cond, then, els, ind)
        if e == 'else':
            self.i += 1; els = self.block(ind + '    '); e = self.inner(self.toks[self.i])
        else: els = '[]'
        assert e == 'endif', e
        self.i += 1
        return self.cond(cond, then, els, ind)
    def cond(self, cond, then, els, ind):
        c = self.conds[cond]
        if isinstance(c, tuple):   # an option: (scrutinee, bound name)
            return f'(match {c[0]} with\n{ind}    | Some {c[1]} => {then}\n{ind}    | None => {els}\n{ind}    end)'
        return f'(if {c} then {then}\n{ind}    else {els})'
    def run(self):
        r = self.block('   ')
        assert self.i == len(self.toks), self.toks[self.i]
        return r

def between(path, start, end, incl=False):
    s = open(REPO + path).read()
    a = s.index(start); b = s.index(end, a + len(start))
    text = s[a + len(start):b]
    l1 = s.count('\n', 0, a) + 1; l2 = s.count('\n', 0, b) + 1
    return text, l1, l2

def macro(name):
    s = open(REPO + 'templates/macros.html').read()
    m = re.search(r'\{%-? macro ' + name + r'\(.*?\) (-?)%\}', s, re.S)
    e = re.compile(r'\{%(-?) endmacro %\}').search(s, m.end())
    body = s[m.end():e.start()]
    if m.group(1): body = body.lstrip()
    if e.group(1): body = body.rstrip()
    return body, s.count('\n', 0, m.start()) + 1, s.count('\n', 0, e.end()) + 1

out = []
def emit(comment, sig, src, exprs, conds={}, loops={}, auto=True):
    out.append(f'(** {comment} *)\nDefinition {sig} : list piece :=\n   {Gen(src, exprs, conds, loops, auto).run()}.\n')

HEAD = '''(** Markup.v: the HTML of the pages and of the documents shown on them (hyperreal/templates/
    *.html and the templates in hyperreal/corpus.py:548-599, 959-985). Written by
    tools/gen_markup.py from the templates: the literal texts are theirs, to the character.
    Simplifications: of each page the content block is modelled, without the layout around it
    (base.html), which shows nothing of the corpus; an expression stands for the text Jinja
    makes of it ([str]), and ids are compared by their texts; matrices of concordances
    (macros.html:15-56) are left out, as no page shows them (see C77). *)
From Coq Require Export Ascii String.
From stdpp Require Export base list strings.
Open Scope string_scope.
Open Scope list_scope.

(** A piece of a template: its own text; a value that Jinja escapes (autoescape is on for the
    pages, server.py:17-19, and off in the templates of corpus.py, except for [| e]); or a
    value that is put in as it is. *)
Inductive piece := Lit (s : string) | Esc (s : string) | Raw (s : string).

(** markupsafe.escape. *)
Definition escape_char (c : ascii) : string :=
  if Ascii.eqb c "&" then "&amp;"
  else if Ascii.eqb c "<" then "&lt;"
  else if Ascii.eqb c ">" then "&gt;"
  else if Ascii.eqb c "'" then "&#39;"
  else if Ascii.eqb c """" then "&#34;"
  else String c "".
Fixpoint escape (s : string) : string :=
  match s with "" => "" | String c s => (escape_char c +:+ escape s)%string end.

Definition piece_text (p : piece) : string :=
  match p with Lit s => s | Esc s => escape s | Raw s => s end.
Fixpoint render (ps : list piece) : string :=
  match ps with [] => "" | p :: ps => (piece_text p +:+ render ps)%string end.
Definition each {A} (l : list A) (f : A -> list piece) : list piece := concat (List.map f l).

(** A document as the corpus renders it: a text (PlainTextSqliteCorpus, corpus.py:218-220),
    which the page escapes, or [Markup], which it does not. *)
Inductive shown_doc := Plain (s : string) | Marked (s : string).
Definition doc_piece (d : shown_doc) : piece := match d with Plain s => Esc s | Marked s => Raw s end.

(** What the templates are given. A feature: id, field, value, score. *)
Record feature_item := FI { fi_id : string; fi_field : string; fi_value : string; fi_score : string }.
(** A passage: its fields, each with the texts shown for it. *)
Definition passage_item := list (string * list string).
Inductive results := Documents (l : list shown_doc) | PassagesOf (l : list passage_item).
Definition results_empty (r : results) : bool :=
  match r with Documents [] => true | PassagesOf [] => true | _ => false end.
(** [score is not none]: a cluster with its score and features. *)
Record cluster_item := CI { ci_id : string; ci_score : option string; ci_features : list feature_item }.
Definition same_id (a : string) (b : option string) : bool := bool_decide (b = Some a).
'''

b, l1, l2 = macro('render_feature')
emit(f'templates/macros.html:{l1}-{l2} [render_feature]. [cluster]: the cluster, if the page is that of a cluster.',
  'render_feature (index_id : string) (cluster : option string) (f : feature_item) (chosen : option string)', b,
  {'index_id': 'index_id', "'cluster/{}/'.format(cluster_id) if context =='cluster'": 'match cluster with Some c => ("cluster/" +:+ c +:+ "/")%string | None => "" end',
   'feature_id': '(fi_id f)', 'field': '(fi_field f)', 'value': '(fi_value f)', '("{:.2e}").format(score)': '(fi_score f)'},
  {'feature_id == highlight_feature_id': 'same_id (fi_id f) chosen'})
out[-1] = out[-1].replace('Esc match', 'Esc (match').replace('"" end', '"" end)')

b, l1, l2 = macro('render_passage')
emit(f'templates/macros.html:{l1}-{l2} [render_passage].', 'render_passage (passage : passage_item)', b,
  {'field': 'x.1', 'value': 'v'}, {}, {'for field, values in passage.items()': ('x', 'passage'), 'for value in values': ('v', 'x.2')})

b, l1, l2 = macro('render_search_results')
a = b.index("{% elif"); z = b.index('{% else %}'); e = b.index('{% endif %}')
emit(f'templates/macros.html:{l1}-{l2} [render_search_results]; the tuples are without the ids. The first branch is never taken (C77).',
  'render_results (r : results)',
  b[:b.index("{% if result_type == 'concordances'")] + '{% if passage %}' + b[a:z].split('%}', 1)[1] + b[z:],
  {'render_passage(passage)': '@render_passage p', 'doc': 'DOC'},
  {'passage': 'PASSAGE'},
  {'for doc_id, doc_key, passage in results': ('p', 'PL'), 'for doc_id, doc_key, doc in results': ('d', 'DL')})
x = out[-1].replace('Esc DOC', 'doc_piece d')
x = re.sub(r'\(if PASSAGE then (.*)\n    ?   else (.*)\)\n   \+\+', lambda m: '(match r with\n       | PassagesOf l => ' + m.group(1).replace('PL', 'l') + '\n       | Documents l => ' + m.group(2).replace('DL', 'l') + '\n       end)\n   ++', x, flags=re.S)
if 'PASSAGE' in x:
    x = re.sub(r'\(if PASSAGE then (.*)\n       else (.*)\)\.', lambda m: '(match r with\n       | PassagesOf l => ' + m.group(1).replace('PL', 'l') + '\n       | Documents l => ' + m.group(2).replace('DL', 'l') + '\n       end).', x, flags=re.S)
out[-1] = x

b, l1, l2 = macro('render_cluster')
emit(f'templates/macros.html:{l1}-{l2} [render_cluster]. [here]: on the page of a cluster; [chosen_cluster], [chosen]: what the page was asked about.',
  'render_cluster (index_id : string) (here : bool) (x : cluster_item) (chosen_cluster chosen : option string)', b,
  {'cluster_id': '(ci_id x)', '"{:.2e}".format(cluster_score)': 's', 'index_id': 'index_id',
   'render_feature(index_id, cluster_id, feature_id, field, value, score, context, highlight_feature_id=highlight_feature_id)':
     '@render_feature index_id (if here then Some (ci_id x) else None) f chosen',
   'highlight_feature_id': 'f', 'highlight_cluster_id': 'c'},
  {'cluster_id == highlight_cluster_id': 'same_id (ci_id x) chosen_cluster', 'cluster_score is not none': ('ci_score x', 's'),
   'context == "index"': 'negb here', 'highlight_feature_id is not none': ('chosen', 'f'), 'highlight_cluster_id is not none': ('chosen_cluster', 'c')},
  {'for feature_id, field, value, score in features': ('f', '(ci_features x)')})

b, l1, l2 = macro('render_context_search')
emit(f'templates/macros.html:{l1}-{l2} [render_context_search]. [cluster]: the id, if it is there and not 0.',
  'render_context_search (index_id : string) (fields : list string) (cluster : option string)', b,
  {'index_id': 'index_id', 'field': 'x', 'cluster_id': 'c'}, {'cluster_id': ('cluster', 'c')}, {'for field in fields': ('x', 'fields')})

SR = {'search_results': 'negb (results_empty found)', 'search_results|length < total_docs': 'sample'}
b, l1, l2 = between('templates/index.html', '{% block content %}', '{% endblock %}')
emit(f'templates/index.html:{l1}-{l2}. [sample]: not all of the documents are shown; [total]: how many there are.',
  'overview_content (index_id : string) (fields : list string) (sample : bool) (total : string) (found : results)\n    (clusters : list cluster_item) (chosen_cluster chosen : option string)', b,
  {'render_context_search(index_id, fields)': '@render_context_search index_id fields None', 'index_id': 'index_id', 'total_docs': 'total',
   'render_search_results(search_results, result_type)': '@render_results found',
   'render_cluster(index_id, cluster_id, cluster_score, features, highlight_cluster_id, highlight_feature_id)': '',
   'render_cluster(index_id, cluster_id, features, cluster_score, highlight_cluster_id, highlight_feature_id)': '@render_cluster index_id false x chosen_cluster chosen'},
  SR, {'for cluster_id, cluster_score, features in clusters': ('x', 'clusters')})

b, l1, l2 = between('templates/cluster.html', '{% block content %}', '{% endblock %}')
emit(f'templates/cluster.html:{l1}-{l2}. [named]: the id for the search form, if it is not 0; [near]: the ids of the neighbours, if one is not 0; [next]: the next one; [features]: those the page lists, also the visible ones (server.py:124).',
  'cluster_content (index_id : string) (fields : list string) (c : string) (named : option string) (near : option (string * string)) (next : string)\n    (pinned : bool) (features : list feature_item) (sample : bool) (total : string) (found : results) (chosen : option string)', b,
  {'render_context_search(index_id, fields, cluster_id=cluster_id)': '@render_context_search index_id fields named', 'index_id': 'index_id', 'cluster_id': 'c',
   'prev_cluster_id': 'n.1', 'next_cluster_id': 'NEXT', '0 if pinned else 1': '(if pinned then "0" else "1")',
   'feature_id': '(fi_id f)', 'field': '(fi_field f)', 'value': '(fi_value f)', 'total_docs': 'total',
   'render_search_results(search_results, result_type)': '@render_results found',
   'render_cluster(index_id, cluster_id, features, highlight_feature_id=highlight_feature_id, context="cluster")': '@render_cluster index_id true (CI c None features) None chosen'},
  dict(SR, **{'prev_cluster_id or next_cluster_id': ('near', 'n'), 'pinned': 'pinned', 'visible_features': 'negb (bool_decide (length features = 0))'}),
  {'for feature_id, field, value, count in features': ('f', 'features'), 'for feature_id in visible_features': ('f', 'features')})
x = out[-1]
i = x.index('Esc NEXT'); x = x[:i] + 'Esc n.2' + x[i+8:]
out[-1] = x.replace('Esc NEXT', 'Esc next')

b, l1, l2 = between('templates/details.html', '{% block content %}', '{% endblock %}')
emit(f'templates/details.html:{l1}-{l2}. A field: its name, number of values, least and greatest value, and positions.',
  'details_content (index_id : string) (fields : list (string * string * string * string * string)) (current : string)', b,
  {'index_id': 'index_id', 'field': 'x.1.1.1.1', 'granularity': 'x.1.1.1.2', 'min_value': 'x.1.1.2', 'max_value': 'x.1.2', 'position_count': 'x.2', 'current_clusters': 'current'},
  {}, {'for field, granularity, min_value, max_value, position_count in field_summary': ('x', 'fields'), 'for field, _, _, _, _ in field_summary': ('x', 'fields')})

out.append('''(** The fields of a StackExchange post that its template shows; [None] in a text column is
    shown as "None"; [rp_owner]: the id of the author if it is there (and not 0). *)
Record post_comment := PC { pc_text : string; pc_license : string; pc_site : string; pc_user : option string; pc_name : string }.
Record rendered_post := RP { rp_title : string; rp_type : string; rp_site : string; rp_link : string; rp_license : string;
  rp_owner : option string; rp_name : string; rp_body : string; rp_tags : list string; rp_comments : list post_comment }.
''')
s, l1, l2 = between('corpus.py', 'TEMPLATE = Template(\n        """', '"""')
bf = lambda k: 'base_fields["%s"]' % k
cf = lambda k: 'comment["%s"]' % k
emit(f'corpus.py:{l1}-{l2}, StackExchangeCorpus.TEMPLATE. Autoescape is off.', 'post_template (p : rendered_post)', s,
  {bf('QuestionTitle') + ' | e': '(rp_title p)', bf('PostType'): '(rp_type p)', bf('site_url'): '(rp_site p)', bf('LiveLink'): '(rp_link p)', bf('ContentLicense'): '(rp_license p)',
   "'{}/users/{}'.format(%s, %s)" % (bf('site_url'), bf('OwnerUserId')): '(rp_site p +:+ "/users/" +:+ u)%string', bf('DisplayName'): '(rp_name p)', bf('Body'): '(rp_body p)',
   'tag': 't', cf('Text') + ' | e': '(pc_text c)', cf('ContentLicense'): '(pc_license c)',
   "'{}/users/{}'.format(%s, %s)" % (cf('site_url'), cf('UserId')): '(pc_site c +:+ "/users/" +:+ u)%string', cf('DisplayName'): '(pc_name c)'},
  {bf('OwnerUserId'): ('rp_owner p', 'u'), cf('UserId'): ('pc_user c', 'u')},
  {'for tag in tags': ('t', '(rp_tags p)'), 'for comment in user_comments': ('c', '(rp_comments p)')}, auto=False)
out.append('''(** The fields of a tweet that its template shows. *)
Record rendered_tweet := RT { rt_image : string; rt_username : string; rt_name : string; rt_id : string; rt_created : string;
  rt_text : string; rt_likes : string; rt_replies : string; rt_quotes : string; rt_retweets : string; rt_retrieved : string }.
''')
txt = open(REPO + 'corpus.py').read(); off = txt.index('class Twittersphere')
a = txt.index('TEMPLATE = Template(\n        """', off); b0 = a + len('TEMPLATE = Template(\n        """'); e0 = txt.index('"""', b0)
l1 = txt.count('\n', 0, a) + 1; l2 = txt.count('\n', 0, e0) + 1
d = lambda k: 'doc["%s"]' % k
emit(f'corpus.py:{l1}-{l2}, TwittersphereCorpus.TEMPLATE. Autoescape is off.', 'tweet_template (t : rendered_tweet)', txt[b0:e0],
  {'doc["user"]["profile_image_url"]': '(rt_image t)', 'doc["user"]["username"]': '(rt_username t)', 'doc["user"]["name"]': '(rt_name t)', d('tweet_id'): '(rt_id t)',
   "doc['created_at']": '(rt_created t)', d('text'): '(rt_text t)', d('like_count'): '(rt_likes t)', d('reply_count'): '(rt_replies t)', d('quote_count'): '(rt_quotes t)',
   d('retweet_count'): '(rt_retweets t)', d('retrieved_at'): '(rt_retrieved t)'}, auto=False)
out.append('''(** corpus.py:687-697 and 988-996: the rendered documents are [Markup]; corpus.py:218-220. *)
Definition render_post (p : rendered_post) : shown_doc := Marked (render (post_template p)).
Definition render_tweet (t : rendered_tweet) : shown_doc := Marked (render (tweet_template t)).
Definition render_text (s : string) : shown_doc := Plain s.
''')
dst = os.path.join(os.path.dirname(__file__), '..', 'rocq', 'theories', 'Markup.v')
open(dst, 'w').write(HEAD + '\n' + '\n'.join(out))
