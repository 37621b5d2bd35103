"""Appends to seeded/LOG.jsonl the attempts recorded by the mutation runner (given as files)."""
import json, sys, os
LOG=os.path.join(os.path.dirname(__file__),'..','seeded','LOG.jsonl')
TIGHT={
 'feature and cluster columns swapped':(['C93_clusters_file_partial','C93_web_file'],'at first no theorem failed: the rows were stated with the function of the model; now with their literal contents'),
 'the mark of a cluster is not written':(['C93_sample_file_partial'],'at first no theorem failed; now stated with the literal cells'),
 'CR LF read as two line ends':(['C62_line_ends'],'at first no theorem failed: C62_line_ends was added'),
 'unfinished last record dropped':(['C62_open_quote_refuted'],'at first no theorem failed: C62_open_quote_refuted was added'),
 'rendering skips unknown documents':(['C95_nothing_left','C96_failed_rendering_partial','C96_stale_after_failed_rendering'],'at first only the example failed: rendering is now specified independently of the model'),
 'rollback to the committed contents':([],'equivalent where the theorem applies: alone, the view is the committed contents'),
 'the order of the columns (no claim about it)':([],'no claim about it: cells are found by the names of their columns'),
 'link to a tweet with the number of the user':([],'no claim about it: the link is not part of the text of the page'),
 'IndexingError hidden':(['C64_in_transaction'],'no theorem failed: C64_in_transaction was added; with it the edit is rejected'),
 'an empty target is zero':([],'equivalent: refine_clusters takes zero for no target'),
 '0 counts as true':([],'equivalent: refine_clusters takes zero for no target; the other use is a text'),
 'collections are joined':(['C51_not_a_sequence_raises'],'no theorem failed: C51_not_a_sequence_raises was added; with it the edit is rejected'),
 'errors while reading the file ignored':([],'equivalent: replace_docs hides the error itself (C55_failure_reported_refuted)'),
 'list accepted':([],'no control of a page sends a list for this parameter: the claims remain true'),
 'transaction kept open after the last row':(['C119_calls_partial','C118_present_state'],'no theorem failed: "underway" was stated with the function of the model; now independently of it, and the edit is rejected'),
 'the carry is appended even if it is empty':(['C01_bitslice_counts'],'at first only a lemma failed: that the last slice is not empty is now part of the theorem'),
 're-indexing unpins features':(['C71_reindexing_keeps_the_model'],'no theorem failed: C71 was added; with it the edit is rejected')}
seen=set()
if os.path.exists(LOG):
    for l in open(LOG): seen.add((lambda r:(r['definition'],r['edit'],r.get('new','')))(json.loads(l)))
with open(LOG,'a') as out:
    for f in sys.argv[1:]:
        for l in open(f):
            r=json.loads(l); m=r['mut']
            if r.get('bad') or 'error' in r: continue
            k=(m['file']+':'+m['definition'],m['edit'],m['new'])
            if k in seen: continue
            seen.add(k)
            t,note=TIGHT.get(m['edit'],([],''))
            rec=dict(definition=k[0],edit=m['edit'],old=m['old'],new=m['new'],claim_broken=m['claim'],
                     theorems_failed=r['failed_theorems'],lemmas_failed={k:v[:8] for k,v in r['failed_lemmas'].items()},theorems_tightened=t)
            if note: rec['note']=note
            out.write(json.dumps(rec,ensure_ascii=False)+'\n')
