*.vo
*.vok
*.vos
*.glob
*.aux
Makefile
Makefile.conf
.Makefile.d
*.d
.lia.cache
.nia.cache
.CoqMakefile.d
.Makefile.d
.nra.cache
.lia.cache
.nia.cache
.csdp.cache
