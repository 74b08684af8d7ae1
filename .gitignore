*.vo
*.vos
*.vok
*.glob
.*.aux
.lia.cache
.nia.cache
.csdp.cache
Makefile
Makefile.conf
.Makefile.d
*.d
.coqdeps.d
.nra.cache
