*.vo
*.vok
*.vos
*.glob
*.aux
.lia.cache
.nia.cache
Makefile
Makefile.conf
.Makefile.d
rocq/.Makefile.d
__pycache__
